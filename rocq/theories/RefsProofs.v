(** Proofs about reference resolution, phase 1: collecting the graph. *)
From Coq Require Import ZArith List Bool Lia ZifyBool.
From Verif Require Import Base BaseFacts RecordsModel RecordsProofs RefsModel SpecRefs.
Import ListNotations.
Open Scope Z_scope.

Ltac bnd H x Hx := apply bind_some in H as [x [Hx H]]; cbv beta iota in H.

Lemma mem_In : forall x l, mem x l = true <-> In x l.
Proof.
  intros x l. unfold mem. rewrite existsb_exists. split.
  - intros [y [I E]]. apply Nat.eqb_eq in E. now subst.
  - intro I. exists x. split; [exact I|apply Nat.eqb_refl].
Qed.
Lemma mem_notIn : forall x l, mem x l = false <-> ~ In x l.
Proof. intros. rewrite <- mem_In. destruct (mem x l); split; congruence. Qed.
Lemma upd_eq : forall {A} (f : aid -> A) k v, upd f k v k = v.
Proof. intros. unfold upd. now rewrite Nat.eqb_refl. Qed.
Lemma upd_neq : forall {A} (f : aid -> A) k v x, x <> k -> upd f k v x = f x.
Proof. intros. unfold upd. apply Nat.eqb_neq in H. now rewrite H. Qed.

Lemma keys_set_fresh : forall {V} (l : list (aid * V)) k v, ~ In k (keys l) -> dict_set Nat.eqb l k v = l ++ [(k, v)].
Proof. intros. apply dict_set_fresh; [apply Nat.eqb_eq|assumption]. Qed.
Lemma keys_set_old : forall {V} (l : list (aid * V)) k v, In k (keys l) -> keys (dict_set Nat.eqb l k v) = keys l.
Proof.
  induction l as [|[k' v'] l IH]; intros k v I; [destruct I|]. cbn [dict_set].
  destruct (Nat.eqb k k') eqn:E; [reflexivity|]. cbn [keys map fst]. f_equal. apply IH.
  destruct I as [I|I]; [cbn in I; subst; rewrite Nat.eqb_refl in E; discriminate|exact I].
Qed.
Lemma keys_app : forall {V} (l m : list (aid * V)), keys (l ++ m) = keys l ++ keys m.
Proof. intros. apply map_app. Qed.
Lemma get_set_eq : forall {V} (l : list (aid * V)) k v, dict_get Nat.eqb (dict_set Nat.eqb l k v) k = Some v.
Proof.
  induction l as [|[k' v'] l IH]; intros; cbn [dict_set dict_get]; [now rewrite Nat.eqb_refl|].
  destruct (Nat.eqb k k') eqn:E; cbn [dict_get]; rewrite E; auto.
Qed.
Lemma get_set_neq : forall {V} (l : list (aid * V)) k v x, x <> k -> dict_get Nat.eqb (dict_set Nat.eqb l k v) x = dict_get Nat.eqb l x.
Proof.
  induction l as [|[k' v'] l IH]; intros k v x N; cbn [dict_set dict_get].
  - apply Nat.eqb_neq in N. now rewrite N.
  - destruct (Nat.eqb k k') eqn:E; cbn [dict_get].
    + apply Nat.eqb_eq in E. subst k'. apply Nat.eqb_neq in N. now rewrite N.
    + destruct (Nat.eqb x k'); auto.
Qed.
Lemma get_none : forall {V} (l : list (aid * V)) k, ~ In k (keys l) -> dict_get Nat.eqb l k = None.
Proof.
  induction l as [|[k' v'] l IH]; intros k N; cbn [dict_get]; [reflexivity|].
  destruct (Nat.eqb k k') eqn:E; [apply Nat.eqb_eq in E; subst; exfalso; apply N; now left|].
  apply IH. intro I. apply N. now right.
Qed.
Lemma get_key : forall {V} (l : list (aid * V)) k v, dict_get Nat.eqb l k = Some v -> In k (keys l).
Proof.
  intros V l k v H. destruct (in_dec Nat.eq_dec k (keys l)); [assumption|]. rewrite get_none in H by assumption. discriminate.
Qed.

(** The action references of a reference list. *)
Definition acts (g : aid -> node) (l : list gref) : list aid :=
  flat_map (fun r => match r with GAct r => if n_referenceable (g r) then [r] else [] | _ => [] end) l.
Definition succs (g : aid -> node) (a : aid) : list aid := if n_referencing (g a) then acts g (n_refs (g a)) else [].
Definition cnt_in (l : list aid) (r : aid) : nat := count_occ Nat.eq_dec l r.
Definition sumf (f : aid -> nat) (l : list aid) : nat := fold_right (fun a n => (f a + n)%nat) O l.
Definition occ (g : aid -> node) (r a : aid) : nat := cnt_in (succs g a) r.

Lemma sumf_app : forall f l m, sumf f (l ++ m) = (sumf f l + sumf f m)%nat.
Proof. induction l; intro m; cbn [app sumf fold_right]; [reflexivity|]. unfold sumf in *. rewrite IHl. lia. Qed.
Lemma cnt_in_app : forall l m r, cnt_in (l ++ m) r = (cnt_in l r + cnt_in m r)%nat.
Proof. intros. unfold cnt_in. apply count_occ_app. Qed.
Lemma cnt_in_one : forall r z, cnt_in [r] z = if Nat.eqb z r then 1%nat else O.
Proof.
  intros r z. unfold cnt_in. cbn [count_occ]. destruct (Nat.eq_dec r z) as [->|N]; [now rewrite Nat.eqb_refl|].
  destruct (Nat.eqb z r) eqn:E; [apply Nat.eqb_eq in E; congruence|reflexivity].
Qed.
Lemma uses_succs : forall g a r, uses g a r <-> In r (succs g a).
Proof.
  intros g a r. unfold uses, succs, acts. split.
  - intros (H1 & H2 & H3). rewrite H1. apply in_flat_map. exists (GAct r). split; [exact H2|]. rewrite H3. now left.
  - destruct (n_referencing (g a)); [|intros []]. intro I. apply in_flat_map in I as [[x| |] [I J]]; try destruct J.
    destruct (n_referenceable (g x)) eqn:E; [|destruct J]. destruct J as [<-|[]]. auto.
Qed.

Section P1.
  Variable g : aid -> node.
  Variable listed : list aid.
  Hypothesis Hin : inline_refs g listed.
  Notation need := (needed g listed).

  Definition unlisted (x : aid) : Prop := ~ In x listed.
  Definition blank (st : rstate) (x : aid) : Prop := r_oref st x = [] /\ r_uref st x = [].
  Definition fresh_ok (st : rstate) : Prop := forall x, ~ In x (keys (r_actions st)) -> unlisted x -> blank st x.
  Definition covers (st : rstate) (a : aid) (l : list aid) : Prop :=
    forall x, In x (r_oref st a ++ r_uref st a) <-> In x l.

  (** What resolving the references [l] of [s] adds: [N] new actions. *)
  Record added (s : aid) (l : list aid) (st st' : rstate) (N : list aid) : Prop := {
    ad_keys : keys (r_actions st') = keys (r_actions st) ++ N;
    ad_nodup : NoDup N;
    ad_disj : forall x, In x N -> ~ In x (keys (r_actions st)) /\ unlisted x /\ need x;
    ad_cnt : forall r, r_cnt st' r = (r_cnt st r + cnt_in l r + sumf (occ g r) N)%nat;
    ad_s : forall x, In x (r_oref st' s ++ r_uref st' s) <-> In x (r_oref st s ++ r_uref st s) \/ In x l;
    ad_new : forall a, In a N -> covers st' a (succs g a);
    ad_new_in : forall a x, In a N -> In x (succs g a) -> In x (keys (r_actions st'));
    ad_old : forall a, ~ In a N -> a <> s -> r_oref st' a = r_oref st a /\ r_uref st' a = r_uref st a;
    ad_info_new : forall x, In x N -> dict_get Nat.eqb (r_actions st') x = Some None;
    ad_info_old : forall x, ~ In x N -> dict_get Nat.eqb (r_actions st') x = dict_get Nat.eqb (r_actions st) x;
    ad_in : forall x, In x l -> In x (keys (r_actions st'));
    ad_why : forall x, In x N -> In x l \/ exists a, In a N /\ In x (succs g a) }.

  Lemma fresh_after : forall s l st st' N, (In s (keys (r_actions st)) \/ In s listed) -> fresh_ok st ->
    added s l st st' N -> fresh_ok st'.
  Proof.
    intros s l st st' N Hs F A x Hx U. destruct A as [K _ _ _ _ _ _ O _ _ _ _].
    rewrite K in Hx. assert (X : ~ In x (keys (r_actions st)) /\ ~ In x N) by (split; intro I; apply Hx, in_or_app; auto).
    destruct X as [X1 X2]. assert (Q : x <> s) by (intros ->; destruct Hs as [Hs|Hs]; [tauto|now apply U]).
    destruct (O x X2 Q) as [E1 E2]. unfold blank. rewrite E1, E2. now apply F.
  Qed.

  Lemma added_trans : forall s l1 l2 st st1 st2 N1 N2, ~ In s N1 -> ~ In s N2 ->
    added s l1 st st1 N1 -> added s l2 st1 st2 N2 -> added s (l1 ++ l2) st st2 (N1 ++ N2).
  Proof.
    intros s l1 l2 st st1 st2 N1 N2 S1 S2 A B.
    destruct A as [AK AN AD AC AS AE AEI AO AI AIO AIN AW]. destruct B as [BK BN BD BC BS BE BEI BO BI BIO BIN BW].
    assert (D : forall x, In x N2 -> ~ In x N1).
    { intros x I J. destruct (BD x I) as [Q _]. apply Q. rewrite AK. apply in_or_app. now right. }
    constructor.
    - rewrite BK, AK. now rewrite app_assoc.
    - clear -AN BN D. induction AN as [|x l Hx AN IH]; cbn [app]; [exact BN|]. constructor.
      + intro I. apply in_app_or in I as [I|I]; [tauto|]. apply (D x I). now left.
      + apply IH. intros y Y Z. apply (D y Y). now right.
    - intros x I. apply in_app_or in I as [I|I]; [now apply AD|]. destruct (BD x I) as (Q1 & Q2 & Q3).
      split; [|split; assumption]. intro J. apply Q1. rewrite AK. apply in_or_app. now left.
    - intro r. rewrite BC, AC, sumf_app, cnt_in_app. lia.
    - intro x. rewrite BS, AS, (in_app_iff l1 l2). tauto.
    - intros a I x. apply in_app_or in I as [I|I].
      + destruct (BO a) as [E1 E2]; [intro J; exact (D a J I)|intros ->; tauto|]. rewrite E1, E2. now apply AE.
      + now apply BE.
    - intros a x I J. apply in_app_or in I as [I|I].
      + rewrite BK. apply in_or_app. left. now apply (AEI a x).
      + now apply (BEI a x).
    - intros a I J. destruct (BO a) as [E1 E2]; [intro X; apply I, in_or_app; now right|assumption|].
      rewrite E1, E2. apply AO; [intro X; apply I, in_or_app; now left|assumption].
    - intros x I. apply in_app_or in I as [I|I].
      + rewrite BIO; [now apply AI|]. intro J. exact (D x J I).
      + now apply BI.
    - intros x I. rewrite BIO by (intro X; apply I, in_or_app; now right).
      apply AIO. intro X; apply I, in_or_app; now left.
    - intros x I. apply in_app_or in I as [I|I].
      + rewrite BK. apply in_or_app. left. now apply AIN.
      + now apply BIN.
    - intros x I. apply in_app_or in I as [I|I].
      + destruct (AW x I) as [J|[a [J1 J2]]]; [left; apply in_or_app; now left|].
        right. exists a. split; [apply in_or_app; now left|assumption].
      + destruct (BW x I) as [J|[a [J1 J2]]]; [left; apply in_or_app; now right|].
        right. exists a. split; [apply in_or_app; now right|assumption].
  Qed.

  Lemma added_refl : forall s st, added s [] st st [].
  Proof.
    intros s st. constructor; try (intros; contradiction); try reflexivity.
    - now rewrite app_nil_r.
    - constructor.
    - intro r. cbn. lia.
    - intro x. cbn [In]. tauto.
    - intros; split; reflexivity.
  Qed.

  Lemma sumf0 : forall (f : aid -> nat), sumf f [] = O.
  Proof. reflexivity. Qed.

  Lemma loop_spec : forall (refids : list (Z * aid)) (rec : aid -> rstate -> option rstate)
    (IH : forall s st st', rec s st = Some st' -> need s -> unlisted s ->
       In s (keys (r_actions st)) -> dict_get Nat.eqb (r_actions st) s = Some None -> fresh_ok st -> blank st s ->
       exists N, added s (succs g s) st st' N /\ ~ In s N) s l st st1,
    need s -> n_referencing (g s) = true -> (In s (keys (r_actions st)) \/ In s listed) -> fresh_ok st ->
    (forall r, In r l -> In r (n_refs (g s))) ->
    resolve_loop g refids rec s l st = Some st1 ->
    exists N, added s (acts g l) st st1 N /\ ~ In s N.
  Proof.
      intros refids rec IH s l st st1 Hn R Hk Hf Sub H1. revert Sub H1.
      revert st Hk Hf. induction l as [|r l IHl]; intros st Hk Hf Sub H1; cbn [resolve_loop] in H1.
      { apply some_inj in H1. subst st1. exists []. split; [apply added_refl|intros []]. }
      bnd H1 st2 H2.
      assert (Step : exists N, added s (acts g [r]) st st2 N /\ ~ In s N).
      { destruct r as [r|v|].
        - cbn [acts flat_map]. rewrite app_nil_r. destruct (n_referenceable (g r)) eqn:RR; cbn [negb] in H2;
            [|apply some_inj in H2; subst st2; exists []; split; [apply added_refl|intros []]].
          destruct (Nat.eqb r s) eqn:Ers; [discriminate|]. apply Nat.eqb_neq in Ers. cbv zeta in H2.
          assert (U : uses g s r) by (repeat split; [assumption|apply Sub; now left|assumption]).
          assert (Nr : need r) by (eapply need_used; eassumption).
          assert (Ur : unlisted r) by exact (ir_unlisted _ _ Hin s r Hn U).
          cbn [inc_cnt r_actions] in H2.
          destruct (mem r (keys (r_actions st))) eqn:M; cbn [negb] in H2.
          + apply some_inj in H2. apply mem_In in M. exists []. split; [|intros []]. subst st2.
            assert (Q : forall z, In z (r_oref (add_oref (inc_cnt st r) s r) s) <-> In z (r_oref st s) \/ z = r).
            { intro z. unfold add_oref. cbn [inc_cnt r_oref]. destruct (mem r (r_oref st s)) eqn:MM.
              - cbn [inc_cnt r_oref]. apply mem_In in MM. split; [tauto|]. intros [Y| ->]; assumption.
              - cbn [r_oref]. rewrite upd_eq, in_app_iff. cbn [In]. intuition. }
            assert (W : r_actions (add_oref (inc_cnt st r) s r) = r_actions st /\
                        r_uref (add_oref (inc_cnt st r) s r) = r_uref st /\
                        r_cnt (add_oref (inc_cnt st r) s r) = upd (r_cnt st) r (S (r_cnt st r)) /\
                        (forall a, a <> s -> r_oref (add_oref (inc_cnt st r) s r) a = r_oref st a)).
            { unfold add_oref. cbn [inc_cnt r_oref]. destruct (mem r (r_oref st s)); repeat split.
              intros a Na. cbn [r_oref inc_cnt]. now rewrite upd_neq. }
            destruct W as (W1 & W2 & W3 & W4).
            constructor; try (intros; contradiction).
            * rewrite W1. now rewrite app_nil_r.
            * constructor.
            * intro z. rewrite W3, sumf0, cnt_in_one. unfold upd. destruct (Nat.eqb z r) eqn:Ez; [apply Nat.eqb_eq in Ez; subst z|]; lia.
            * intro z. rewrite W2, !in_app_iff, Q. cbn [In]. intuition.
            * intros a _ Na. rewrite W2. split; [now apply W4|reflexivity].
            * intros x _. now rewrite W1.
            * intros x [<-|[]]. rewrite W1. exact M.
          + apply mem_notIn in M.
            set (st3 := add_uref (set_action (inc_cnt st r) r None) s r) in *.
            assert (K3 : r_actions st3 = r_actions st ++ [(r, None)]).
            { subst st3. cbn [add_uref set_action inc_cnt r_actions]. now apply keys_set_fresh. }
            assert (K3' : keys (r_actions st3) = keys (r_actions st) ++ [r]) by (rewrite K3; apply keys_app).
            assert (Bl : blank st3 r).
            { unfold blank. subst st3. cbn [add_uref set_action inc_cnt r_oref r_uref]. rewrite upd_neq by assumption.
              apply (Hf r M Ur). }
            assert (F3 : fresh_ok st3).
            { intros x Nx Ux. rewrite K3' in Nx. assert (Nx' : ~ In x (keys (r_actions st))) by (intro; apply Nx, in_or_app; now left).
              unfold blank. subst st3. cbn [add_uref set_action inc_cnt r_oref r_uref].
              rewrite upd_neq; [now apply Hf|]. intros ->. destruct Hk as [Hk|Hk]; [tauto|now apply Ux]. }
            destruct (IH r st3 st2 H2) as [N [A NR]]; try assumption.
            { rewrite K3'. apply in_or_app. right. now left. }
            { subst st3. cbn [add_uref set_action inc_cnt r_actions]. apply get_set_eq. }
            destruct A as [AK AN AD AC AS AE AEI AO AI AIO AIN AW].
            assert (SN : ~ In s (r :: N)).
            { intros [E|I]; [congruence|]. destruct (AD s I) as (Q & Q' & _). destruct Hk as [Hk|Hk]; [|now apply Q'].
              apply Q. rewrite K3'. apply in_or_app. now left. }
            exists (r :: N). split; [|exact SN].
            assert (Q : forall x, dict_get Nat.eqb (r_actions st3) x = if Nat.eqb x r then Some None else dict_get Nat.eqb (r_actions st) x).
            { intro x. subst st3. cbn [add_uref set_action inc_cnt r_actions]. destruct (Nat.eqb x r) eqn:E.
              - apply Nat.eqb_eq in E. subst. apply get_set_eq.
              - apply Nat.eqb_neq in E. now apply get_set_neq. }
            assert (Cov : covers st2 r (succs g r)).
            { intro x. rewrite AS. destruct Bl as [-> ->]. cbn [app In]. tauto. }
            constructor.
            * rewrite AK, K3', <- app_assoc. reflexivity.
            * constructor; assumption.
            * intros x [<-|I]; [auto|]. destruct (AD x I) as (Q1 & Q2 & Q3). split; [|auto].
              intro J. apply Q1. rewrite K3'. apply in_or_app. now left.
            * intro z. rewrite AC. subst st3. cbn [add_uref set_action inc_cnt r_cnt]. cbn [sumf fold_right].
              fold (sumf (occ g z) N). rewrite cnt_in_one. change (occ g z r) with (cnt_in (succs g r) z). unfold upd.
              destruct (Nat.eqb z r) eqn:Ez; [apply Nat.eqb_eq in Ez; subst z|]; lia.
            * intro x. destruct (AO s) as [E1 E2]; [intro; apply SN; now right|congruence|]. rewrite E1, E2.
              subst st3. cbn [add_uref set_action inc_cnt r_oref r_uref]. rewrite upd_eq, !in_app_iff. cbn [In]. intuition.
            * intros a [<-|I]; [exact Cov|now apply AE].
            * intros a x [<-|I] J; [now apply AIN|]. now apply (AEI a x).
            * intros a I Na. destruct (AO a) as [E1 E2]; [intro; apply I; now right|intros ->; apply I; now left|].
              rewrite E1, E2. subst st3. cbn [add_uref set_action inc_cnt r_oref r_uref]. now rewrite upd_neq.
            * intros x [<-|I]; [|now apply AI]. rewrite AIO by assumption. rewrite Q, Nat.eqb_refl. reflexivity.
            * intros x I. rewrite AIO by (intro; apply I; now right). rewrite Q.
              destruct (Nat.eqb x r) eqn:E; [apply Nat.eqb_eq in E; subst; exfalso; apply I; now left|reflexivity].
            * intros x [<-|[]]. rewrite AK, K3'. apply in_or_app. left. apply in_or_app. right. now left.
            * intros x [<-|I]; [left; now left|]. destruct (AW x I) as [J|[a [J1 J2]]].
              -- right. exists r. split; [now left|exact J].
              -- right. exists a. split; [now right|exact J2].
        - cbn [acts flat_map app]. exists []. split; [|intros []].
          pose proof (ir_nonum _ _ Hin s v Hn (Sub _ (or_introl eq_refl))) as B.
          destruct (negb (Z.land v 32768 =? 0)) eqn:E.
          + apply some_inj in H2. subst st2. apply added_refl.
          + exfalso. apply negb_false_iff, Z.eqb_eq in E.
            assert (X : Z.testbit (Z.land v 32768) 15 = true) by (rewrite Z.land_spec, B; reflexivity).
            rewrite E in X. discriminate.
        - apply some_inj in H2. subst st2. cbn [acts flat_map app]. exists []. split; [apply added_refl|intros []]. }
      destruct Step as [N1 [A1 S1]].
      destruct (IHl st2) as [N2 [A2 S2]]; [| | |exact H1|].
      - destruct Hk as [Hk|Hk]; [left|now right]. rewrite (ad_keys _ _ _ _ _ A1). apply in_or_app. now left.
      - eapply fresh_after; [exact Hk|exact Hf|exact A1].
      - intros z Z. apply Sub. now right.
      - exists (N1 ++ N2). split.
        + change (acts g (r :: l)) with (acts g ([r] ++ l)). unfold acts at 1. rewrite flat_map_app.
          now apply (added_trans s (acts g [r]) (acts g l) st st2 st1).
        + intro I. apply in_app_or in I as [I|I]; tauto.
  Qed.

  Lemma resolve_spec : forall fuel refids,
    (forall s st st', resolve fuel g refids s None st = Some st' -> need s -> unlisted s ->
       In s (keys (r_actions st)) -> dict_get Nat.eqb (r_actions st) s = Some None -> fresh_ok st -> blank st s ->
       exists N, added s (succs g s) st st' N /\ ~ In s N).
  Proof.
    induction fuel as [|fuel IH]; intros refids s st st' H Hn Hu Hk Hi Hf Hb; [discriminate|].
    cbn [resolve] in H. bnd H st1 H1.
    assert (L : exists N, added s (succs g s) st st1 N /\ ~ In s N).
    { unfold succs. destruct (n_referencing (g s)) eqn:R;
        [|apply some_inj in H1; subst st1; exists []; split; [apply added_refl|intros []]].
      apply (loop_spec refids (fun r st => resolve fuel g refids r None st) (IH refids) s (n_refs (g s)) st st1); auto. }
    destruct L as [N [A S]]. exists N. split; [|exact S].
    assert (Hi1 : dict_get Nat.eqb (r_actions st1) s = Some None) by (rewrite (ad_info_old _ _ _ _ _ A) by assumption; exact Hi).
    rewrite Hi1 in H. apply some_inj in H. subst st'.
    assert (Hk1 : In s (keys (r_actions st1))) by (rewrite (ad_keys _ _ _ _ _ A); apply in_or_app; now left).
    assert (G : forall x, dict_get Nat.eqb (r_actions (set_action st1 s None)) x = dict_get Nat.eqb (r_actions st1) x).
    { intro x. cbn [set_action r_actions]. destruct (Nat.eq_dec x s) as [->|E]; [now rewrite get_set_eq, Hi1|now rewrite get_set_neq]. }
    assert (Kk : keys (r_actions (set_action st1 s None)) = keys (r_actions st1)) by (cbn [set_action r_actions]; now apply keys_set_old).
    destruct A as [AK AN AD AC AS AE AEI AO AI AIO AIN AW].
    constructor; try assumption; try (intros; rewrite Kk; eauto); try (intros; rewrite G; eauto).
  Qed.

  Record inv1 (pr : list aid) (st : rstate) : Prop := {
    i1_nodup : NoDup (keys (r_actions st));
    i1_listed : filter (fun x => mem x listed) (keys (r_actions st)) = pr;
    i1_fresh : fresh_ok st;
    i1_rest : forall x, In x listed -> ~ In x pr -> blank st x /\ ~ In x (keys (r_actions st));
    i1_covers : forall a, In a (keys (r_actions st)) -> covers st a (succs g a) /\ need a;
    i1_closed : forall a x, In a (keys (r_actions st)) -> In x (succs g a) -> In x (keys (r_actions st));
    i1_cnt : forall r, r_cnt st r = sumf (occ g r) (keys (r_actions st));
    i1_info : forall x, In x (keys (r_actions st)) -> unlisted x -> dict_get Nat.eqb (r_actions st) x = Some None;
    i1_infol : forall x, In x pr -> exists i, dict_get Nat.eqb (r_actions st) x = Some (Some i);
    i1_why : forall x, In x (keys (r_actions st)) -> unlisted x -> exists a, In a (keys (r_actions st)) /\ In x (succs g a) }.

  Lemma inv1_0 : inv1 [] rs0.
  Proof.
    constructor; cbn [rs0 r_actions keys map]; try (intros; contradiction); try reflexivity.
    - constructor.
    - intros x _ _. split; reflexivity.
    - intros x I _. split; [split; reflexivity|intros []].
  Qed.

  Lemma filter_none : forall N, (forall x, In x N -> unlisted x) -> filter (fun x => mem x listed) N = [].
  Proof.
    induction N as [|x N IH]; intro H; [reflexivity|]. cbn [filter].
    replace (mem x listed) with false by (symmetry; apply mem_notIn, H; now left). apply IH. intros; apply H; now right.
  Qed.

  Lemma NoDup_snoc : forall {A} (l m : list A), NoDup l -> NoDup m -> (forall x, In x m -> ~ In x l) -> NoDup (l ++ m).
  Proof.
    intros A l m Hl Hm D. induction Hl as [|x l Hx Hl IH]; cbn [app]; [exact Hm|]. constructor.
    - intro I. apply in_app_or in I as [I|I]; [tauto|]. apply (D x I). now left.
    - apply IH. intros y Y Z. apply (D y Y). now right.
  Qed.

  Lemma resolve_listed : forall fuel refids s i st st' pr, resolve fuel g refids s (Some i) st = Some st' ->
    In s listed -> ~ In s pr -> inv1 pr st -> inv1 (pr ++ [s]) st'.
  Proof.
    intros fuel refids s i st st' pr H Hl Hp [INd IL IF IR IC ICl ICn II IIl IW].
    destruct (IR s Hl Hp) as [Hb Hnk]. assert (Hn : need s) by (now apply need_listed).
    destruct fuel as [|fuel]; [discriminate|]. cbn [resolve] in H. bnd H st1 H1.
    assert (L : exists N, added s (succs g s) st st1 N /\ ~ In s N).
    { unfold succs. destruct (n_referencing (g s)) eqn:R;
        [|apply some_inj in H1; subst st1; exists []; split; [apply added_refl|intros []]].
      apply (loop_spec refids (fun r st => resolve fuel g refids r None st) (resolve_spec fuel refids) s (n_refs (g s)) st st1); auto. }
    destruct L as [N [A S]]. destruct A as [AK AN AD AC AS AE AEI AO AI AIO AIN AW].
    assert (Sk : ~ In s (keys (r_actions st1))) by (rewrite AK; intro I; apply in_app_or in I as [I|I]; tauto).
    rewrite (get_none (r_actions st1) s Sk) in H. apply some_inj in H. subst st'.
    assert (K' : keys (r_actions (set_action st1 s (Some i))) = keys (r_actions st) ++ N ++ [s]).
    { cbn [set_action r_actions]. rewrite keys_set_fresh by assumption. rewrite keys_app, AK. cbn [keys map fst]. now rewrite <- app_assoc. }
    assert (G : forall x, x <> s -> dict_get Nat.eqb (r_actions (set_action st1 s (Some i))) x = dict_get Nat.eqb (r_actions st1) x)
      by (intros; now apply get_set_neq).
    assert (KI : forall x, In x (keys (r_actions (set_action st1 s (Some i)))) <-> In x (keys (r_actions st)) \/ In x N \/ x = s).
    { intro x. rewrite K', !in_app_iff. cbn [In]. intuition. }
    assert (U1 : forall x, In x (keys (r_actions st)) -> x <> s) by (intros x I ->; tauto).
    assert (K1 : forall x, In x (keys (r_actions st1)) -> In x (keys (r_actions st)) \/ In x N)
      by (intros x I; rewrite AK in I; now apply in_app_or).
    constructor.
    - rewrite K'. apply NoDup_snoc; [exact INd| |].
      + apply NoDup_snoc; [exact AN|repeat constructor; intros []|]. intros x [<-|[]]. exact S.
      + intros x I J. apply in_app_or in I as [I|[<-|[]]]; [|tauto]. destruct (AD x I). tauto.
    - rewrite K', !filter_app, IL. rewrite (filter_none N) by (intros; now apply AD). cbn [filter app].
      replace (mem s listed) with true by (symmetry; now apply mem_In). reflexivity.
    - intros x I U. assert (X : x <> s) by (intros ->; now apply U). rewrite KI in I. unfold blank. cbn [set_action r_oref r_uref].
      destruct (AO x) as [-> ->]; [tauto|assumption|]. apply IF; tauto.
    - intros x I J. rewrite in_app_iff in J. assert (X : x <> s) by (intros ->; apply J; right; now left).
      destruct (IR x I) as [B Nk]; [tauto|]. assert (XN : ~ In x N) by (intro Y; destruct (AD x Y) as (_ & Q & _); now apply Q).
      split; [|rewrite KI; tauto]. unfold blank. cbn [set_action r_oref r_uref].
      destruct (AO x XN X) as [-> ->]. exact B.
    - intros a I. rewrite KI in I. unfold covers. cbn [set_action r_oref r_uref]. destruct I as [I|[I| ->]].
      + assert (XN : ~ In a N) by (intro Y; destruct (AD a Y); tauto).
        destruct (AO a XN (U1 a I)) as [-> ->]. now apply IC.
      + split; [now apply AE|now apply AD].
      + split; [|exact Hn]. intro x. rewrite AS. destruct Hb as [-> ->]. cbn [app In]. tauto.
    - intros a x I J. rewrite KI in *. destruct I as [I|[I| ->]].
      + left. now apply (ICl a x).
      + specialize (AEI a x I J). apply K1 in AEI. tauto.
      + specialize (AIN x J). apply K1 in AIN. tauto.
    - intro r. rewrite K', !sumf_app. cbn [set_action r_cnt]. rewrite AC, ICn. cbn [sumf fold_right].
      change (occ g r s) with (cnt_in (succs g s) r). lia.
    - intros x I U. assert (X : x <> s) by (intros ->; now apply U). rewrite G by assumption. rewrite KI in I.
      destruct I as [I|[I|I]]; [|now apply AI|tauto].
      rewrite AIO; [now apply II|]. intro Y; destruct (AD x Y); tauto.
    - intros x I. apply in_app_or in I as [I|[<-|[]]].
      + assert (X : x <> s) by (intros ->; tauto). rewrite G by assumption.
        assert (Xk : In x (keys (r_actions st)) /\ In x listed).
        { rewrite <- IL in I. apply filter_In in I as [I1 I2]. now apply mem_In in I2. }
        rewrite AIO; [now apply IIl|]. intro Y; destruct (AD x Y) as (Q & _); tauto.
      + exists i. apply get_set_eq.
    - intros x I U. rewrite KI in I. destruct I as [I|[I| ->]]; [| |exfalso; now apply U].
      + destruct (IW x I U) as [a [P Q]]. exists a. rewrite KI. tauto.
      + destruct (AW x I) as [J|[a [P Q]]]; [exists s|exists a]; rewrite KI; tauto.
  Qed.

  Lemma resolve_all_spec : forall fuel sprites i refids st st' pr,
    resolve_all fuel g i sprites refids st = Some st' -> incl sprites listed ->
    NoDup (pr ++ filter (is_action g) sprites) -> inv1 pr st -> inv1 (pr ++ filter (is_action g) sprites) st'.
  Proof.
    intros fuel sprites. induction sprites as [|s rest IH]; intros i refids st st' pr H Sub ND I; cbn [resolve_all filter] in *.
    - apply some_inj in H. subst st'. now rewrite app_nil_r.
    - fold (is_action g s) in H. destruct (is_action g s) eqn:E; cbn [negb] in H.
      + bnd H st1 H1. cbv zeta in H.
        assert (X : inv1 (pr ++ [s]) st1).
        { eapply resolve_listed; try eassumption; [apply Sub; now left|].
          apply NoDup_remove_2 in ND. intro J. apply ND. apply in_or_app. now left. }
        specialize (IH _ _ _ _ (pr ++ [s]) H). rewrite <- app_assoc in IH. apply IH; auto.
        intros x J. apply Sub. now right.
      + eapply IH; try eassumption. intros x J. apply Sub. now right.
  Qed.

  (** The collected graph. *)
  Record graph (rs : rstate) : Prop := {
    gr_nodup : NoDup (keys (r_actions rs));
    gr_roots : roots rs = filter (is_action g) listed;
    gr_covers : forall a, In a (keys (r_actions rs)) -> covers rs a (succs g a) /\ need a;
    gr_closed : forall a x, In a (keys (r_actions rs)) -> In x (succs g a) -> In x (keys (r_actions rs));
    gr_cnt : forall r, r_cnt rs r = sumf (occ g r) (keys (r_actions rs));
    gr_info : forall x, In x (keys (r_actions rs)) -> unlisted x -> dict_get Nat.eqb (r_actions rs) x = Some None;
    gr_infol : forall x, In x listed -> is_action g x = true -> In x (keys (r_actions rs)) /\ exists i, dict_get Nat.eqb (r_actions rs) x = Some (Some i);
    gr_why : forall x, In x (keys (r_actions rs)) -> unlisted x -> (0 < r_cnt rs x)%nat }.

  Lemma sumf_pos : forall f l a, In a l -> (0 < f a)%nat -> (0 < sumf f l)%nat.
  Proof.
    intros f l a I P. induction l as [|x l IH]; [destruct I|]. cbn [sumf fold_right]. destruct I as [->|I]; [lia|].
    specialize (IH I). unfold sumf in IH. lia.
  Qed.
  Lemma sumf_zero : forall f l, (forall a, In a l -> f a = O) -> sumf f l = O.
  Proof.
    intros f l H. induction l as [|x l IH]; [reflexivity|]. cbn [sumf fold_right].
    rewrite H by now left. unfold sumf in IH. rewrite IH; [reflexivity|]. intros; apply H; now right.
  Qed.
  Lemma occ_pos : forall r a, In r (succs g a) <-> (0 < occ g r a)%nat.
  Proof. intros r a. unfold occ, cnt_in. rewrite (count_occ_In Nat.eq_dec). lia. Qed.
  Lemma filter_ext_in' : forall {A} (p q : A -> bool) l, (forall x, In x l -> p x = q x) -> filter p l = filter q l.
  Proof. intros. now apply filter_ext_in. Qed.

  Lemma resolve_all_graph : forall fuel rs, resolve_all fuel g 0 listed [] rs0 = Some rs -> graph rs.
  Proof.
    intros fuel rs H.
    assert (I : inv1 ([] ++ filter (is_action g) listed) rs).
    { eapply resolve_all_spec; try eassumption; [apply incl_refl|exact (ir_nodup _ _ Hin)|exact inv1_0]. }
    cbn [app] in I. destruct I as [INd IL IF IR IC ICl ICn II IIl IW].
    assert (W : forall x, In x (keys (r_actions rs)) -> unlisted x -> (0 < r_cnt rs x)%nat).
    { intros x K U. destruct (IW x K U) as [a [P Q]]. rewrite ICn. eapply sumf_pos; [exact P|now apply occ_pos]. }
    constructor; auto.
    - unfold roots. rewrite <- IL. apply filter_ext_in'. intros x K. destruct (mem x listed) eqn:M.
      + apply mem_In in M. apply Nat.eqb_eq. rewrite ICn. apply sumf_zero. intros a Ka.
        destruct (occ g x a) eqn:O; [reflexivity|]. exfalso.
        assert (J : In x (succs g a)) by (apply occ_pos; lia). apply uses_succs in J.
        exact (ir_unlisted _ _ Hin a x (proj2 (IC a Ka)) J M).
      + apply mem_notIn in M. apply Nat.eqb_neq. specialize (W x K M). lia.
    - intros x I A. assert (J : In x (filter (is_action g) listed)) by (apply filter_In; auto). split; [|now apply IIl].
      rewrite <- IL in J. now apply filter_In in J.
  Qed.
End P1.
