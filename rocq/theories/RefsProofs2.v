(** Proofs about reference resolution, phase 2: order and ids. *)
From Coq Require Import ZArith List Bool Lia ZifyBool.
From Verif Require Import Base BaseFacts RecordsModel RecordsProofs RefsModel SpecRefs RefsProofs.
Import ListNotations.
Open Scope Z_scope.

Lemma memZ_In : forall x l, memZ x l = true <-> In x l.
Proof.
  intros x l. unfold memZ. rewrite existsb_exists. split.
  - intros [y [I E]]. apply Z.eqb_eq in E. now subst.
  - intro I. exists x. split; [exact I|apply Z.eqb_refl].
Qed.
Lemma min_of_in : forall l m, In (min_of m l) (m :: l).
Proof.
  induction l as [|x l IH]; intro m; cbn [min_of]; [now left|]. destruct (IH (Z.min m x)) as [E|I].
  - rewrite <- E. destruct (Z.min_spec m x) as [[_ ->]|[_ ->]]; cbn; auto.
  - right. now right.
Qed.
Lemma remove1_in : forall m l x, In x (remove1 m l) -> In x l.
Proof.
  induction l as [|y l IH]; intros x I; cbn [remove1] in I; [destruct I|]. destruct (y =? m); [now right|].
  destruct I as [<-|I]; [now left|right; auto].
Qed.
Lemma remove1_nodup : forall m l, NoDup l -> NoDup (remove1 m l) /\ ~ In m (remove1 m l).
Proof.
  induction l as [|y l IH]; intro N; cbn [remove1]; [split; [constructor|intros []]|]. inversion N as [|? ? Hy Nl]; subst.
  destruct (y =? m) eqn:E.
  - apply Z.eqb_eq in E. subst. auto.
  - apply Z.eqb_neq in E. destruct (IH Nl) as [A B]. split.
    + constructor; [|exact A]. intro I. apply Hy. eapply remove1_in; eassumption.
    + intros [X|X]; auto.
Qed.
Lemma pop_free_spec : forall n ids v ids', pop_free n ids [] = Some (v, ids') -> NoDup ids ->
  In (- v) ids /\ NoDup ids' /\ ~ In (- v) ids' /\ (forall x, In x ids' -> In x ids).
Proof.
  destruct n as [|n]; intros ids v ids' H N; cbn [pop_free] in H; [discriminate|].
  destruct ids as [|i ids]; cbn [pop_min] in H; [discriminate|]. cbn [memZ existsb] in H. apply some_inj, pair_inj in H as [<- <-].
  rewrite Z.opp_involutive. destruct (remove1_nodup (min_of i ids) (i :: ids) N) as [A B]. split; [apply min_of_in|].
  split; [exact A|]. split; [exact B|]. intros x I. eapply remove1_in; exact I.
Qed.

Lemma sumf_split : forall f K F a, NoDup K -> In a K -> ~ In a F ->
  sumf f (filter (fun x => negb (mem x F)) K) = (f a + sumf f (filter (fun x => negb (mem x (F ++ [a]))) K))%nat.
Proof.
  intros f K F a ND I NF. induction ND as [|x K Hx ND IH]; [destruct I|].
  assert (M : forall y, mem y (F ++ [a]) = mem y F || Nat.eqb y a).
  { intro y. unfold mem. rewrite existsb_app. cbn [existsb]. now rewrite orb_false_r. }
  cbn [filter]. rewrite M. destruct I as [->|I].
  - rewrite Nat.eqb_refl, orb_true_r. cbn [negb]. replace (mem a F) with false by (symmetry; now apply mem_notIn). cbn [negb].
    cbn [sumf fold_right]. f_equal. fold (sumf f (filter (fun x => negb (mem x F)) K)).
    f_equal. apply filter_ext_in. intros y Y. rewrite M. destruct (Nat.eqb y a) eqn:E; [apply Nat.eqb_eq in E; subst; tauto|].
    now rewrite orb_false_r.
  - assert (Nx : Nat.eqb x a = false) by (apply Nat.eqb_neq; intros ->; tauto). rewrite Nx, orb_false_r.
    specialize (IH I). destruct (mem x F); cbn [negb]; [exact IH|].
    cbn [sumf fold_right]. fold (sumf f (filter (fun x => negb (mem x F)) K)).
    fold (sumf f (filter (fun x => negb (mem x (F ++ [a]))) K)). rewrite IH. lia.
Qed.

Lemma split_last : forall {A} (F : list A) (b : A) X r Y, F ++ [b] = X ++ r :: Y ->
  (Y = [] /\ r = b /\ X = F) \/ (exists Y', Y = Y' ++ [b] /\ F = X ++ r :: Y').
Proof.
  intros A F b X r Y H. destruct (exists_last (l := r :: Y)) as [Z [z Hz]]; [discriminate|].
  assert (E : F ++ [b] = (X ++ Z) ++ [z]) by (rewrite <- app_assoc, <- Hz; exact H).
  apply app_inj_tail in E as [E1 E2]. subst z. destruct Z as [|z Z].
  - left. cbn in Hz. injection Hz as -> ->. rewrite app_nil_r in E1. auto.
  - right. cbn in Hz. injection Hz as -> ->. exists Z. auto.
Qed.

Lemma nodup_app : forall {A} (l m : list A), NoDup (l ++ m) -> NoDup l /\ NoDup m /\ (forall x, In x m -> ~ In x l).
Proof.
  intros A l m. induction l as [|x l IH]; cbn [app]; intro H.
  - split; [constructor|]. split; [exact H|]. intros x _ [].
  - inversion H as [|? ? Hx Hl]; subst. destruct (IH Hl) as (A1 & A2 & A3). split; [|split; [exact A2|]].
    + constructor; [|exact A1]. intro I. apply Hx, in_or_app. now left.
    + intros y Y [<-|Z]; [apply Hx, in_or_app; now right|exact (A3 y Y Z)].
Qed.

Section P2.
  Variable g : aid -> node.
  Variable listed : list aid.
  Hypothesis Hin : inline_refs g listed.
  Variable rank : aid -> nat.
  Hypothesis Hrank : forall a r, uses g a r -> (rank r < rank a)%nat.
  Variable rs : rstate.
  Hypothesis G : graph g listed rs.
  Notation need := (needed g listed).
  Notation K := (keys (r_actions rs)).

  Definition live (st : dstate) (x : aid) : Prop :=
    In x (d_visited st) /\ n_referenceable (g x) = true /\ ((0 < d_cnt st x)%nat \/ In x listed).

  Record heap_ok (st : dstate) : Prop := {
    h_res : d_reserved st = [];
    h_nodup : NoDup (d_ids st);
    h_rng : forall v, In v (d_ids st) -> -255 <= v <= -1;
    h_live : forall x v, live st x -> d_id st x = Some v -> ~ In (- v) (d_ids st);
    h_dist : forall x y, live st x -> live st y -> d_id st x = d_id st y -> x = y;
    h_ref : forall x, In x (d_visited st) -> n_referenceable (g x) = true -> exists v, d_id st x = Some v /\ 1 <= v <= 255;
    h_none : forall x, ~ In x (d_visited st) -> d_id st x = n_ref_id (g x);
    h_plain : forall x, In x (d_visited st) -> n_referenceable (g x) = false -> d_id st x = None }.

  Record inv2 (F S : list aid) (st : dstate) : Prop := {
    v_set : forall x, In x (d_visited st) <-> In x F \/ In x S;
    v_nodup : NoDup (F ++ S);
    v_sub : forall x, In x F \/ In x S -> In x K;
    v_cnt : forall r, d_cnt st r = sumf (occ g r) (filter (fun a => negb (mem a F)) K);
    v_heap : heap_ok st;
    v_after : forall X r Y, F = X ++ r :: Y -> live st r -> forall y, In y Y -> d_id st y <> d_id st r;
    v_order : forall F1 a F2, F = F1 ++ a :: F2 -> forall r, In r (succs g a) ->
       exists v, last_with_id (d_id st) F1 v r /\ d_feature st r = d_feature st a;
    v_feat : forall x, In x (d_visited st) -> exists f, d_feature st x = Some f }.

  (** What a step leaves alone. *)
  Definition stable (st st' : dstate) : Prop :=
    (forall x, In x (d_visited st) -> d_id st' x = d_id st x /\ d_feature st' x = d_feature st x /\ In x (d_visited st')).
  Lemma stable_refl : forall st, stable st st.
  Proof. intros st x I. auto. Qed.
  Lemma stable_trans : forall a b c, stable a b -> stable b c -> stable a c.
  Proof. intros a b c H1 H2 x I. destruct (H1 x I) as (E1 & E2 & E3). destruct (H2 x E3) as (E4 & E5 & E6). repeat split; congruence || assumption. Qed.

  Lemma release_spec : forall l st st', release g l st = Some st' -> heap_ok st ->
    (forall r, In r (acts g l) -> In r (d_visited st) /\ ~ In r listed) ->
    heap_ok st' /\ d_visited st' = d_visited st /\ d_id st' = d_id st /\ d_feature st' = d_feature st /\ d_linked st' = d_linked st /\
    (forall r, d_cnt st r = (d_cnt st' r + cnt_in (acts g l) r)%nat).
  Proof.
    induction l as [|r l IH]; intros st st' H Hh Hl; cbn [release] in H.
    - apply some_inj in H. subst st'. split; [exact Hh|]. do 4 (split; [reflexivity|]). intro r. cbn. lia.
    - destruct r as [r|v|]; [|now apply IH|now apply IH].
      cbn [acts flat_map] in *. destruct (n_referenceable (g r)) eqn:R; cbn [negb] in H; [|now apply IH].
      fold (acts g l) in *. destruct (d_cnt st r) as [|c] eqn:C; [discriminate|].
      destruct (Hl r) as [Hv Hu]; [apply in_or_app; left; now left|].
      assert (Lr : live st r) by (split; [exact Hv|split; [exact R|left; lia]]).
      bnd H st1 H1.
      assert (X : heap_ok st1 /\ d_visited st1 = d_visited st /\ d_id st1 = d_id st /\ d_feature st1 = d_feature st /\
                  d_linked st1 = d_linked st /\ d_cnt st1 = upd (d_cnt st) r c).
      { destruct Hh as [R0 N0 G0 L0 D0 F0 O0 P0].
        assert (LL : forall cn, cn = upd (d_cnt st) r c -> forall x, (0 < cn x)%nat -> (0 < d_cnt st x)%nat).
        { intros cn -> x. unfold upd. destruct (Nat.eqb x r) eqn:E; [apply Nat.eqb_eq in E; subst; lia|auto]. }
        destruct c as [|c].
        - bnd H1 v Hv1. apply some_inj in H1. subst st1. cbn [d_visited d_id d_feature d_linked d_cnt]. split; [|auto].
          destruct (F0 r Hv R) as (v' & E & Rv). assert (v' = v) by congruence. subst v'.
          assert (W : forall x, live (mkDS (d_feature st) (d_id st) (if memZ (- v) (d_ids st) then d_ids st else - v :: d_ids st)
                             (filter (fun x => negb (x =? v)) (d_reserved st)) (d_linked st) (d_visited st) (upd (d_cnt st) r O)) x ->
                           live st x /\ x <> r).
          { intros x (A & B & C'). cbn [d_visited d_cnt] in *. split.
            - split; [exact A|]. split; [exact B|]. destruct C' as [C'|C']; [left; eapply LL; [reflexivity|exact C']|now right].
            - intros ->. rewrite upd_eq in C'. destruct C' as [C'|C']; [lia|tauto]. }
          assert (M : memZ (- v) (d_ids st) = false).
          { destruct (memZ (- v) (d_ids st)) eqn:M; [|reflexivity]. apply memZ_In in M. exfalso. exact (L0 r v Lr E M). }
          rewrite M in *.
          constructor; cbn [d_reserved d_ids d_id d_visited]; try assumption.
          + now rewrite R0.
          + constructor; [|exact N0]. intro I. apply memZ_In in I. congruence.
          + intros z [<-|I]; [lia|now apply G0].
          + intros x z Lx Ex. destruct (W x Lx) as [Lx' Nx]. intros [Ez|Ez]; [|exact (L0 x z Lx' Ex Ez)].
            assert (v = z) by lia. subst z. apply Nx, D0; try assumption. congruence.
          + intros x y Lx Ly. apply D0; now apply W.
        - apply some_inj in H1. subst st1. cbn [d_visited d_id d_feature d_linked d_cnt]. split; [|auto].
          assert (W : forall x, live (mkDS (d_feature st) (d_id st) (d_ids st) (d_reserved st) (d_linked st) (d_visited st) (upd (d_cnt st) r (S c))) x -> live st x).
          { intros x (A & B & C'). cbn [d_visited d_cnt] in *.
            split; [exact A|]. split; [exact B|]. destruct C' as [C'|C']; [left; eapply LL; [reflexivity|exact C']|now right]. }
          constructor; cbn [d_reserved d_ids d_id d_visited]; try assumption.
          + intros x v Lx. apply L0. now apply W.
          + intros x y Lx Ly. apply D0; now apply W. }
      destruct X as (X0 & X1 & X2 & X3 & X4 & X5).
      destruct (IH st1 st' H X0) as (Y0 & Y1 & Y2 & Y3 & Y4 & Y5).
      { intros z I. rewrite X1. apply Hl. apply in_or_app. now right. }
      split; [exact Y0|]. repeat split; try congruence. intro z. specialize (Y5 z). rewrite X5 in Y5.
      rewrite cnt_in_app, cnt_in_one. unfold upd in Y5. destruct (Nat.eqb z r) eqn:E; [apply Nat.eqb_eq in E; subst z|]; lia.
  Qed.

  Lemma succs_unlisted : forall a x, In a K -> In x (succs g a) -> ~ In x listed.
  Proof.
    intros a x I J. apply uses_succs in J. exact (ir_unlisted _ _ Hin a x (proj2 (gr_covers _ _ _ G a I)) J).
  Qed.

  Definition step_post (a : aid) (w : aid) (f : Z) (F S : list aid) (st st' : dstate) (F' : list aid) : Prop :=
    inv2 (F ++ F') S st' /\ In a (F ++ F') /\ d_feature st' a = Some f /\ stable st st' /\
    (forall x, x <> w -> d_linked st' x = d_linked st x) /\ (forall x, In x F' -> need x).

  (** Visiting the children. *)
  Lemma fold_spec : forall (step : aid -> dstate -> option dstate) w f S (C : list aid),
    (forall a F st st', step a st = Some st' -> In a C -> inv2 F S st ->
       exists F', step_post a w f F S st st' F' /\ d_linked st' w = d_linked st w ++ F' /\ (forall x, In x F' -> ~ In x listed)) ->
    forall l F st st', fold_opt step l st = Some st' -> incl l C -> inv2 F S st ->
    exists F', inv2 (F ++ F') S st' /\ (forall a, In a l -> In a (F ++ F') /\ d_feature st' a = Some f) /\ stable st st' /\
      (forall x, x <> w -> d_linked st' x = d_linked st x) /\ d_linked st' w = d_linked st w ++ F' /\
      (forall x, In x F' -> ~ In x listed /\ need x) /\ (l = [] -> F' = []).
  Proof.
    intros step w f S C Hs. induction l as [|a l IH]; intros F st st' H Hl I; cbn [fold_opt] in H.
    - apply some_inj in H. subst st'. exists []. rewrite !app_nil_r. split; [exact I|]. split; [intros a []|]. split; [apply stable_refl|].
      split; [reflexivity|]. split; [reflexivity|]. split; [intros x []|reflexivity].
    - bnd H st1 H1. destruct (Hs a F st st1 H1 (Hl a (or_introl eq_refl)) I) as (F1 & (A1 & A2 & A3 & A4 & A5 & A6) & A7 & A8).
      destruct (IH (F ++ F1) st1 st' H) as (F2 & B1 & B2 & B3 & B4 & B5 & B6 & _); [intros x X; apply Hl; now right|exact A1|].
      exists (F1 ++ F2). rewrite app_assoc. split; [exact B1|]. split.
      { intros x [<-|X]; [|now apply B2]. split; [apply in_or_app; now left|].
        destruct (B3 a) as (_ & E & _); [apply (v_set _ _ _ A1); now left|]. congruence. }
      split; [eapply stable_trans; eassumption|]. split; [intros x X; rewrite B4, A5; auto|].
      split; [rewrite B5, A7; now rewrite app_assoc|]. split; [|discriminate].
      intros x X. apply in_app_or in X as [X|X]; [split; auto|now apply B6].
  Qed.

  (** Marking an action as visited and giving it its id. *)
  Lemma mark_inv : forall a f st F S idv ids reserved L, inv2 F S st -> In a K -> ~ In a (d_visited st) ->
    (if n_referenceable (g a) then
       match d_id st a with
       | None => do (v, ids) <- pop_free (Datatypes.S (length (d_ids st))) (d_ids st) (d_reserved st); Some (Some v, ids, d_reserved st)
       | Some v => Some (Some v, d_ids st, v :: d_reserved st)
       end
     else Some (d_id st a, d_ids st, d_reserved st)) = Some (idv, ids, reserved) ->
    let st2 := mkDS (upd (d_feature st) a (Some f)) (upd (d_id st) a idv) ids reserved L (a :: d_visited st) (d_cnt st) in
    stable st st2 /\ inv2 F (a :: S) st2.
  Proof.
    intros a f st F S idv ids reserved L I Ka MV Hp st2. pose proof (proj2 (gr_covers _ _ _ G a Ka)) as Na.
    destruct I as [IS IN IK IC IH0 IA IO IFt].
    assert (NF : ~ In a F /\ ~ In a S) by (split; intro Q; apply MV, IS; auto).
    destruct NF as [NF NS].
    assert (St2 : stable st st2).
    { intros x X. assert (x <> a) by (intros ->; tauto). subst st2. cbn [d_id d_feature d_visited]. rewrite !upd_neq by assumption.
      repeat split. now right. }
    assert (LV : forall x, live st2 x -> x <> a -> live st x).
    { intros x (A & B & C) Nx. subst st2. cbn [d_visited d_cnt] in *. destruct A as [A|A]; [congruence|]. repeat split; assumption. }
    assert (H2 : heap_ok st2).
    { destruct IH0 as [R0 N0 G0 L0 D0 F0 O0 P0].
      assert (Ea : d_id st a = None) by (rewrite O0 by assumption; exact (ir_noid _ _ Hin a Na)).
      rewrite Ea, R0 in Hp. destruct (n_referenceable (g a)) eqn:R.
      - bnd Hp q Hq. destruct q as [v ids1]. apply some_inj in Hp.
        assert (idv = Some v /\ ids = ids1 /\ reserved = []) as (-> & -> & ->) by (repeat split; congruence).
        destruct (pop_free_spec _ _ _ _ Hq N0) as (Q1 & Q2 & Q3 & Q4). pose proof (G0 _ Q1) as Rv.
        subst st2. constructor; cbn [d_reserved d_ids d_id d_visited]; auto.
        + intros x z Lx Ex. unfold upd in Ex. destruct (Nat.eqb x a) eqn:E.
          * apply some_inj in Ex. now subst z.
          * apply Nat.eqb_neq in E. intro Y. exact (L0 x z (LV x Lx E) Ex (Q4 _ Y)).
        + intros x y Lx Ly. unfold upd. destruct (Nat.eqb x a) eqn:E1; destruct (Nat.eqb y a) eqn:E2.
          * apply Nat.eqb_eq in E1, E2. congruence.
          * apply Nat.eqb_neq in E2. intro Q. exfalso. exact (L0 y v (LV y Ly E2) (eq_sym Q) Q1).
          * apply Nat.eqb_neq in E1. intro Q. exfalso. exact (L0 x v (LV x Lx E1) Q Q1).
          * apply Nat.eqb_neq in E1, E2. apply D0; now apply LV.
        + intros x X Rx. unfold upd. destruct (Nat.eqb x a) eqn:E; [exists v; split; [reflexivity|lia]|].
          apply Nat.eqb_neq in E. destruct X as [X|X]; [congruence|now apply F0].
        + intros x X. assert (x <> a) by (intros ->; apply X; now left). rewrite upd_neq by assumption. apply O0. intro Y. apply X. now right.
        + intros x X Rx. unfold upd. destruct (Nat.eqb x a) eqn:E; [apply Nat.eqb_eq in E; congruence|].
          apply Nat.eqb_neq in E. destruct X as [X|X]; [congruence|now apply P0].
      - apply some_inj in Hp. assert (idv = None /\ ids = d_ids st /\ reserved = []) as (-> & -> & ->) by (repeat split; congruence).
        assert (LV' : forall x, live st2 x -> live st x).
        { intros x Lx. apply LV; [exact Lx|]. intros ->. destruct Lx as (_ & Q & _). congruence. }
        assert (Nx : forall x, live st2 x -> x <> a) by (intros x (_ & Q & _) ->; congruence).
        subst st2. constructor; cbn [d_reserved d_ids d_id d_visited]; auto.
        + intros x z Lx. rewrite upd_neq by (now apply Nx). apply L0. now apply LV'.
        + intros x y Lx Ly. rewrite !upd_neq by (now apply Nx). apply D0; now apply LV'.
        + intros x X Rx. assert (x <> a) by (intros ->; congruence). rewrite upd_neq by assumption.
          destruct X as [X|X]; [congruence|now apply F0].
        + intros x X. assert (x <> a) by (intros ->; apply X; now left). rewrite upd_neq by assumption. apply O0. intro Y. apply X. now right.
        + intros x X Rx. unfold upd. destruct (Nat.eqb x a) eqn:E; [reflexivity|].
          apply Nat.eqb_neq in E. destruct X as [X|X]; [congruence|now apply P0]. }
    assert (VF : forall x, In x F -> In x (d_visited st)) by (intros x X; apply IS; now left).
    assert (EF : forall x, In x F -> d_id st2 x = d_id st x /\ d_feature st2 x = d_feature st x).
    { intros x X. destruct (St2 x (VF x X)) as (E1 & E2 & _). auto. }
    assert (I2 : inv2 F (a :: S) st2).
    { constructor.
      - intro x. subst st2. cbn [d_visited In]. rewrite IS. intuition.
      - destruct (nodup_app _ _ IN) as (Q1 & Q2 & Q3). apply NoDup_snoc; [exact Q1|now constructor|].
        intros x [<-|X]; [exact NF|now apply Q3].
      - intros x [X|[<-|X]]; [apply IK; now left|exact Ka|apply IK; now right].
      - exact IC.
      - exact H2.
      - intros X r Y E Lr y Iy. assert (Fr : In r F) by (rewrite E; apply in_or_app; right; now left).
        assert (Fy : In y F) by (rewrite E; apply in_or_app; right; now right).
        rewrite (proj1 (EF r Fr)), (proj1 (EF y Fy)). apply (IA X r Y E); [|exact Iy]. apply LV; [exact Lr|]. intros ->. tauto.
      - intros F1 b F2 E r Ir. destruct (IO F1 b F2 E r Ir) as (v & (x & y & Ep & Ev & Ey) & Ef).
        assert (Fb : In b F) by (rewrite E; apply in_or_app; right; now left).
        assert (Fp : forall z, In z F1 -> In z F) by (intros z Z; rewrite E; apply in_or_app; now left).
        assert (Fr : In r F) by (apply Fp; rewrite Ep; apply in_or_app; right; now left).
        exists v. split.
        + exists x, y. split; [exact Ep|]. rewrite (proj1 (EF r Fr)). split; [exact Ev|].
          intros z Z. rewrite (proj1 (EF z ltac:(apply Fp; rewrite Ep; apply in_or_app; right; now right))). now apply Ey.
        + rewrite (proj2 (EF r Fr)), (proj2 (EF b Fb)). exact Ef.
      - intros x X. subst st2. cbn [d_visited d_feature] in *. unfold upd. destruct (Nat.eqb x a) eqn:E; [eauto|].
        apply Nat.eqb_neq in E. destruct X as [X|X]; [congruence|now apply IFt]. }
    split; [exact St2|exact I2].
  Qed.

  Lemma dfs_spec : forall fuel a o f st st' F S, dfs fuel g rs a o f st = Some st' -> In a K -> inv2 F S st ->
    (forall y, In y S -> (rank a < rank y)%nat) -> (In a listed -> ~ In a (d_visited st)) ->
    (In a listed -> is_action g a = true) -> (~ In a listed -> o <> None) ->
    exists w F', (if mem a listed then Some a else o) = Some w /\ step_post a w f F S st st' F' /\
      d_linked st' w = (if mem a listed then [] else d_linked st w) ++ F' /\
      (In a listed -> exists F'', F' = F'' ++ [a] /\ (forall x, In x F'' -> ~ In x listed) /\ (succs g a = [] -> F'' = [])) /\
      (~ In a listed -> forall x, In x F' -> ~ In x listed).
  Proof.
    induction fuel as [|fuel IH]; intros a o f st st' F S H Ka I Hr Hv Hact Ho; [discriminate|].
    cbn [dfs] in H. bnd H ai Hai.
    destruct (feature_clash (d_feature st a) f) eqn:FC; [discriminate|].
    assert (W : exists w, (if mem a listed then Some a else o) = Some w).
    { destruct (mem a listed) eqn:M; [eauto|]. apply mem_notIn in M. destruct o as [w|]; [eauto|]. exfalso. now apply (Ho M). }
    destruct W as [w Hw]. exists w.
    destruct (mem a (d_visited st)) eqn:MV.
    { apply mem_In in MV. apply some_inj in H. subst st'. assert (NL : ~ In a listed) by (intro Q; now apply (Hv Q)).
      exists []. rewrite app_nil_r. unfold step_post. rewrite app_nil_r.
      replace (mem a listed) with false in * by (symmetry; now apply mem_notIn).
      destruct (proj1 (v_set _ _ _ I a) MV) as [IF|IS]; [|specialize (Hr a IS); lia].
      destruct (v_feat _ _ _ I a MV) as [f' Ef]. rewrite Ef in FC. cbn [feature_clash] in FC.
      apply negb_false_iff, Z.eqb_eq in FC. subst f'.
      split; [exact Hw|]. split; [|split; [reflexivity|split; [tauto|intros _ x []]]].
      split; [exact I|]. split; [exact IF|]. split; [exact Ef|]. split; [apply stable_refl|]. split; [reflexivity|intros x []]. }
    apply mem_notIn in MV.
    bnd H p Hp. destruct p as [[idv ids] reserved]. cbv zeta in H.
    pose proof (proj2 (gr_covers _ _ _ G a Ka)) as Na.
    cbn [d_feature d_id d_ids d_reserved d_linked d_visited d_cnt] in H.
    set (L := if mem a listed then upd (d_linked st) a [] else d_linked st).
    set (st2 := mkDS (upd (d_feature st) a (Some f)) (upd (d_id st) a idv) ids reserved L (a :: d_visited st) (d_cnt st)) in *.
    assert (Est2 : (match ai with Some _ => mkDS (upd (d_feature st) a (Some f)) (upd (d_id st) a idv) ids reserved (upd (d_linked st) a []) (a :: d_visited st) (d_cnt st) | None => mkDS (upd (d_feature st) a (Some f)) (upd (d_id st) a idv) ids reserved (d_linked st) (a :: d_visited st) (d_cnt st) end) = st2).
    { subst st2 L. destruct (mem a listed) eqn:M.
      - apply mem_In in M. destruct (gr_infol _ _ _ G a M (Hact M)) as [_ [i Ei]]. rewrite Ei in Hai. apply some_inj in Hai. subst ai. reflexivity.
      - apply mem_notIn in M. rewrite (gr_info _ _ _ G a Ka M) in Hai. apply some_inj in Hai. subst ai. reflexivity. }
    assert (Ew : (match ai with Some _ => Some a | None => o end) = Some w).
    { destruct (mem a listed) eqn:M.
      - apply mem_In in M. destruct (gr_infol _ _ _ G a M (Hact M)) as [_ [i Ei]]. rewrite Ei in Hai. apply some_inj in Hai. subst ai. exact Hw.
      - apply mem_notIn in M. rewrite (gr_info _ _ _ G a Ka M) in Hai. apply some_inj in Hai. subst ai. exact Hw. }
    rewrite Est2, Ew in H. clear Est2 Ew Hai ai.
    destruct (mark_inv a f st F S idv ids reserved L I Ka MV Hp) as [St2 I2]. fold st2 in St2, I2.
    (* the children *)
    assert (Step : forall c F0 s0 s1, (fun x st => dfs fuel g rs x (Some w) f st) c s0 = Some s1 -> In c (succs g a) -> inv2 F0 (a :: S) s0 ->
       exists F', step_post c w f F0 (a :: S) s0 s1 F' /\ d_linked s1 w = d_linked s0 w ++ F' /\ (forall x, In x F' -> ~ In x listed)).
    { intros c F0 s0 s1 Hc Ic I0. cbv beta in Hc. pose proof (succs_unlisted a c Ka Ic) as Uc.
      destruct (IH c (Some w) f s0 s1 F0 (a :: S) Hc) as (w' & F' & Ew & P1 & P2 & _ & P4); try assumption.
      - eapply gr_closed; eassumption.
      - pose proof (Hrank a c (proj2 (uses_succs g a c) Ic)) as Q. intros y [<-|Y]; [exact Q|]. specialize (Hr y Y). lia.
      - tauto.
      - tauto.
      - discriminate.
      - replace (mem c listed) with false in * by (symmetry; now apply mem_notIn). apply some_inj in Ew. subst w'.
        exists F'. auto. }
    assert (Cov : forall x, In x (r_oref rs a ++ r_uref rs a) <-> In x (succs g a)) by apply (gr_covers _ _ _ G a Ka).
    bnd H st3 H3. bnd H st4 H4.
    destruct (fold_spec _ w f (a :: S) (succs g a) Step _ F st2 st3 H3) as (Fa & A1 & A2 & A3 & A4 & A5 & A6 & A7);
      [intros x X; apply Cov, in_or_app; now left|exact I2|].
    destruct (fold_spec _ w f (a :: S) (succs g a) Step _ (F ++ Fa) st3 st4 H4) as (Fb & B1 & B2 & B3 & B4 & B5 & B6 & B7);
      [intros x X; apply Cov, in_or_app; now right|exact A1|].
    cbn [bind] in H. set (F'' := Fa ++ Fb). rewrite <- app_assoc in B1. fold F'' in B1.
    assert (ChF : forall c, In c (succs g a) -> In c (F ++ F'') /\ d_feature st4 c = Some f).
    { intros c Ic. apply Cov, in_app_or in Ic as [Ic|Ic].
      - destruct (A2 c Ic) as [Q1 Q2]. split; [unfold F''; rewrite app_assoc; apply in_or_app; now left|].
        destruct (B3 c) as (_ & E & _); [apply (v_set _ _ _ A1); now left|]. congruence.
      - destruct (B2 c Ic) as [Q1 Q2]. split; [unfold F''; rewrite app_assoc; exact Q1|exact Q2]. }
    assert (St4 : stable st2 st4) by (eapply stable_trans; eassumption).
    set (st5 := mkDS (d_feature st4) (d_id st4) (d_ids st4) (d_reserved st4) (upd (d_linked st4) w (d_linked st4 w ++ [a])) (d_visited st4) (d_cnt st4)) in *.
    destruct B1 as [JS JN JK JC JH JA JO JF].
    assert (NFa : ~ In a (F ++ F'')).
    { intro Q. apply NoDup_remove_2 in JN. apply JN. apply in_or_app. now left. }
    assert (H5 : heap_ok st5) by (destruct JH as [R0 N0 G0 L0 D0 F0 O0 P0]; constructor; assumption).
    assert (Va : In a (d_visited st4)) by (apply JS; right; now left).
    assert (Rel : heap_ok st' /\ d_visited st' = d_visited st4 /\ d_id st' = d_id st4 /\ d_feature st' = d_feature st4 /\
                  d_linked st' = d_linked st5 /\ (forall r, d_cnt st4 r = (d_cnt st' r + occ g r a)%nat)).
    { unfold occ, succs. destruct (n_referencing (g a)) eqn:Rg.
      - apply (release_spec (n_refs (g a)) st5 st' H H5). intros r Ir.
        assert (Ir' : In r (succs g a)) by (unfold succs; now rewrite Rg). split; [|now apply (succs_unlisted a r)].
        apply JS. left. now apply ChF.
      - apply some_inj in H. subst st'. split; [exact H5|]. do 4 (split; [reflexivity|]). intro r. cbn. lia. }
    clear H. destruct Rel as (H6 & V6 & I6 & T6 & L6 & C6).
    assert (Lv : forall x, live st' x -> live st4 x).
    { intros x (Q1 & Q2 & Q3). rewrite V6 in Q1. split; [exact Q1|]. split; [exact Q2|].
      destruct Q3 as [Q3|Q3]; [left; specialize (C6 x); lia|now right]. }
    assert (Fa4 : d_feature st4 a = Some f).
    { destruct (St4 a) as (_ & E & _); [subst st2; now left|]. rewrite E. subst st2. cbn [d_feature]. apply upd_eq. }
    assert (La : n_referenceable (g a) = true -> live st4 a).
    { intro Ra. split; [exact Va|]. split; [exact Ra|]. destruct (in_dec Nat.eq_dec a listed) as [Il|Nl]; [now right|left].
      rewrite JC. pose proof (gr_why _ _ _ G a Ka Nl) as P. rewrite (gr_cnt _ _ _ G) in P.
      assert (U : exists u, In u K /\ In a (succs g u)).
      { clear -P. induction K as [|u l IHl]; [cbn in P; lia|]. cbn [sumf fold_right] in P.
        destruct (occ g a u) eqn:O; [destruct IHl as [v [V1 V2]]; [exact P|exists v; split; [now right|exact V2]]|].
        exists u. split; [now left|]. apply (occ_pos g). lia. }
      destruct U as [u [Ku Iu]]. eapply sumf_pos; [|apply (occ_pos g); exact Iu].
      apply filter_In. split; [exact Ku|]. apply negb_true_iff, mem_notIn. intro Q. apply in_split in Q as (X & Y & E).
      destruct (JO X u Y E a Iu) as (v & (x & y & Ex & _) & _). apply NFa. rewrite E, Ex. apply in_or_app. left. apply in_or_app. right. now left. }
    assert (INV : inv2 ((F ++ F'') ++ [a]) S st').
    { constructor.
      - intro x. rewrite V6, JS, !in_app_iff. cbn [In]. intuition.
      - rewrite <- app_assoc. exact JN.
      - intros x X. apply JK. rewrite !in_app_iff in X. rewrite in_app_iff. cbn [In] in *. tauto.
      - intro r. specialize (C6 r). rewrite JC in C6.
        rewrite (sumf_split (occ g r) K (F ++ F'') a (gr_nodup _ _ _ G) Ka NFa) in C6. lia.
      - exact H6.
      - intros X r Y E Lr y Iy. rewrite I6. apply split_last in E as [(-> & _)|(Y' & -> & E)]; [destruct Iy|].
        apply Lv in Lr. apply in_app_or in Iy as [Iy|[<-|[]]].
        + now apply (JA X r Y' E Lr).
        + destruct (n_referenceable (g a)) eqn:Ra.
          * intro Q. assert (Q' : a = r) by (apply (h_dist _ JH); auto). subst r. apply NFa. rewrite E. apply in_or_app. right. now left.
          * rewrite (h_plain _ JH a Va Ra). destruct Lr as (Q1 & Q2 & _). destruct (h_ref _ JH r Q1 Q2) as (v & -> & _). discriminate.
      - intros F1 b F2 E r Ir. rewrite I6, T6. apply split_last in E as [(-> & -> & ->)|(F2' & -> & E)]; [|exact (JO F1 b F2' E r Ir)].
        destruct (ChF r Ir) as [Fr Ef]. apply in_split in Fr as (X & Y & E).
        assert (Ur : uses g a r) by (now apply uses_succs).
        assert (Vr : In r (d_visited st4)) by (apply JS; left; rewrite E; apply in_or_app; right; now left).
        assert (Rr : n_referenceable (g r) = true) by apply Ur.
        destruct (h_ref _ JH r Vr Rr) as (v & Ev & _). exists v. split; [|congruence].
        exists X, Y. split; [exact E|]. split; [exact Ev|]. rewrite <- Ev. apply (JA X r Y E).
        split; [exact Vr|]. split; [exact Rr|]. left. specialize (C6 r). apply (occ_pos g) in Ir. lia.
      - intros x X. rewrite V6 in X. rewrite T6. now apply JF. }
    exists (F'' ++ [a]). rewrite app_assoc in *.
    assert (UF : forall x, In x F'' -> ~ In x listed /\ need x).
    { intros x X. apply in_app_or in X as [X|X]; [now apply A6|now apply B6]. }
    split; [exact Hw|]. split; [|split; [|split]].
    - unfold step_post. rewrite app_assoc. split; [exact INV|]. split; [apply in_or_app; right; now left|]. split; [congruence|]. split.
      + eapply stable_trans; [exact St2|]. eapply stable_trans; [exact St4|]. intros x X. rewrite I6, T6, V6. auto.
      + split.
        * intros x X. rewrite L6. subst st5. cbn [d_linked]. rewrite upd_neq by assumption. rewrite B4, A4 by assumption.
          subst st2 L. cbn [d_linked]. destruct (mem a listed); [|reflexivity]. apply some_inj in Hw. subst w. now apply upd_neq.
        * intros x X. apply in_app_or in X as [X|[<-|[]]]; [now apply UF|exact Na].
    - rewrite L6. subst st5. cbn [d_linked]. rewrite upd_eq, B5, A5. subst st2 L F''. cbn [d_linked].
      destruct (mem a listed); [apply some_inj in Hw; subst w; rewrite upd_eq|]; now rewrite <- !app_assoc.
    - intros _. exists F''. split; [reflexivity|]. split; [intros; now apply UF|].
      intro E. unfold F''. rewrite A7, B7; [reflexivity| |].
      + destruct (r_uref rs a) as [|z zs] eqn:Z; [reflexivity|]. assert (Q : In z (succs g a)) by (apply Cov; apply in_or_app; right; now left).
        rewrite E in Q. destruct Q.
      + destruct (r_oref rs a) as [|z zs] eqn:Z; [reflexivity|]. assert (Q : In z (succs g a)) by (apply Cov; apply in_or_app; left; now left).
        rewrite E in Q. destruct Q.
    - intros Nl x X. apply in_app_or in X as [X|[<-|[]]]; [now apply UF|exact Nl].
  Qed.
End P2.
