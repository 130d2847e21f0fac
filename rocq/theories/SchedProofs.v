(** Proofs for C26 and C27. *)
From Coq Require Import ZArith List Bool Lia Sorting.Permutation Sorting.Sorted.
From Verif Require Import Base BaseFacts RecordsModel RefsModel RefsProofs RefsProofs2 SchedModel SpecSched.
Import ListNotations.
Open Scope Z_scope.

Section S.
  Variable files : aid -> option (list fid).
  Notation need := (need files).

  (** ** The first pass *)
  Definition plainb (s : aid) : bool := match files s with Some [] => true | _ => false end.
  Definition loadedb (s : aid) : bool := match files s with Some (_ :: _) => true | _ => false end.

  Lemma number_plain_spec : forall sprites ordered ids next unordered,
    NoDup (ordered ++ resources files sprites) -> next = 1 + Z.of_nat (length ordered) ->
    map ids ordered = map Some (numbers (length ordered)) ->
    let '(o, i, n, u) := number_plain files sprites (ordered, ids, next, unordered) in
    o = ordered ++ filter plainb sprites /\ u = unordered ++ filter loadedb sprites /\
    n = 1 + Z.of_nat (length o) /\ map i o = map Some (numbers (length o)).
  Proof.
    induction sprites as [|s sprites IH]; intros ordered ids next unordered Nd Hn Hi; cbn [number_plain].
    - cbn [filter]. rewrite !app_nil_r. auto.
    - cbn [resources filter] in Nd. cbn [filter]. unfold plainb at 1, loadedb at 1. destruct (files s) as [[|f l]|] eqn:F.
      + fold (resources files sprites) in Nd.
        assert (Ns : ~ In s ordered).
        { intro I. apply NoDup_remove_2 in Nd. apply Nd, in_or_app. now left. }
        specialize (IH (ordered ++ [s]) (upd ids s (Some next)) (next + 1) unordered).
        rewrite <- app_assoc in IH. cbn [app] in IH. rewrite app_length in IH. cbn [length] in IH.
        specialize (IH Nd). rewrite <- app_assoc in IH. cbn [app] in IH. apply IH; [lia|].
        rewrite map_app. cbn [map]. rewrite upd_eq. unfold numbers. rewrite Nat.add_1_r, seq_S, !map_app. cbn [map].
        f_equal; [|do 2 f_equal; lia]. fold (numbers (length ordered)). rewrite <- Hi. apply map_ext_in. intros x X. rewrite upd_neq; [reflexivity|]. intros ->. tauto.
      + fold (resources files sprites) in Nd. specialize (IH ordered ids next (unordered ++ [s])).
        rewrite <- app_assoc in IH. cbn [app] in IH. apply IH; [|exact Hn|exact Hi].
        apply NoDup_remove_1 in Nd. exact Nd.
      + apply IH; assumption.
  Qed.

  (** ** Sorting *)
  Lemma insert_perm : forall key x l, Permutation (insert_by key x l) (x :: l).
  Proof.
    induction l as [|y l IH]; cbn [insert_by]; [reflexivity|]. destruct (key x <=? key y); [reflexivity|].
    rewrite IH. apply perm_swap.
  Qed.
  Lemma sort_perm : forall key l, Permutation (sort_by key l) l.
  Proof. induction l as [|x l IH]; cbn [sort_by fold_right]; [reflexivity|]. etransitivity; [apply insert_perm|]. now constructor. Qed.
  Lemma insert_sorted : forall key x l, Sorted (fun a b => key a <= key b) l -> Sorted (fun a b => key a <= key b) (insert_by key x l).
  Proof.
    intros key x. induction l as [|y l IH]; intro H; cbn [insert_by]; [repeat constructor|].
    destruct (key x <=? key y) eqn:E; [apply Z.leb_le in E; constructor; [exact H|now constructor]|].
    apply Z.leb_gt in E. apply Sorted_inv in H as [H1 H2]. constructor; [now apply IH|].
    destruct l as [|z l]; cbn [insert_by]; [constructor; lia|]. inversion H2; subst.
    destruct (key x <=? key z); constructor; lia.
  Qed.
  Lemma sort_sorted : forall key l, Sorted (fun a b => key a <= key b) (sort_by key l).
  Proof. induction l as [|x l IH]; cbn [sort_by fold_right]; [constructor|]. now apply insert_sorted. Qed.
  Lemma insert_stable : forall key k x l, Sorted (fun a b => key a <= key b) l ->
    filter (fun a => key a =? k) (insert_by key x l) = filter (fun a => key a =? k) (x :: l).
  Proof.
    intros key k x. induction l as [|y l IH]; intro H; cbn [insert_by]; [reflexivity|].
    destruct (key x <=? key y) eqn:E; [reflexivity|]. apply Z.leb_gt in E. apply Sorted_inv in H as [H1 _].
    cbn [filter] in *. rewrite (IH H1). destruct (key y =? k) eqn:Ey, (key x =? k) eqn:Ex; try reflexivity.
    apply Z.eqb_eq in Ey, Ex. lia.
  Qed.
  Lemma sort_stable : forall key k l, filter (fun a => key a =? k) (sort_by key l) = filter (fun a => key a =? k) l.
  Proof.
    intros key k. induction l as [|x l IH]; cbn [sort_by fold_right]; [reflexivity|].
    rewrite insert_stable by apply sort_sorted. cbn [filter]. fold (sort_by key l). now rewrite IH.
  Qed.

  (** ** The reordering never moves anything *)
  Definition pos_ok (order : list aid) (pos : aid -> nat) : Prop :=
    forall x, In x order -> nth (pos x) order O = x.
  Lemma positions_ok : forall l i pos, NoDup l ->
    (forall x, In x l -> exists k, positions i l pos x = (i + k)%nat /\ nth k l O = x) /\
    (forall x, ~ In x l -> positions i l pos x = pos x).
  Proof.
    induction l as [|s l IH]; intros i pos Nd; [split; [intros x []|reflexivity]|].
    inversion Nd as [|? ? Hs Hl]; subst. cbn [positions]. destruct (IH (S i) (upd pos s i) Hl) as [H1 H2]. split.
    - intros x [<-|X].
      + exists O. rewrite H2 by assumption. rewrite upd_eq. split; [lia|reflexivity].
      + destruct (H1 x X) as (k & Ek & Ex). exists (S k). split; [rewrite Ek; lia|exact Ex].
    - intros x X. rewrite H2; [apply upd_neq|]; intro Y; apply X; [now left|now right].
  Qed.

  Lemma find_pos_self : forall order prio_of i pos x, nth pos order O = x ->
    find_pos order prio_of i pos (prio_of x) = pos.
  Proof.
    intros order prio_of i [|p] x E; cbn [find_pos]; [reflexivity|]. unfold aid in *. rewrite E, Z.ltb_irrefl, andb_false_r. reflexivity.
  Qed.

  (** Everything except the priorities. *)
  Definition same_but_prio (a b : est) : Prop :=
    e_order a = e_order b /\ e_pos a = e_pos b /\ e_sched a = e_sched b /\ e_id a = e_id b /\
    e_next a = e_next b /\ e_load a = e_load b /\ e_last a = e_last b.
  Lemma sbp_refl : forall a, same_but_prio a a.
  Proof. intro a. unfold same_but_prio. intuition. Qed.
  Lemma sbp_trans : forall a b c, same_but_prio a b -> same_but_prio b c -> same_but_prio a c.
  Proof. unfold same_but_prio. intuition; congruence. Qed.

  Lemma bump_same : forall i st x, In x (e_order st) -> pos_ok (e_order st) (e_pos st) -> same_but_prio (bump i st x) st.
  Proof.
    intros i st x Hx Hp. unfold bump. cbv zeta.
    assert (E : find_pos (e_order st) (upd (e_prio st) x (e_prio st x - 1)) i (e_pos st x) (e_prio st x - 1) = e_pos st x).
    { rewrite <- (upd_eq (e_prio st) x (e_prio st x - 1)) at 2. apply find_pos_self. now apply Hp. }
    rewrite E, Nat.eqb_refl. unfold same_but_prio. cbn. intuition.
  Qed.
  Lemma bumps_same : forall i l st, incl l (e_order st) -> pos_ok (e_order st) (e_pos st) -> same_but_prio (fold_left (bump i) l st) st.
  Proof.
    intros i. induction l as [|x l IH]; intros st Hl Hp; cbn [fold_left]; [apply sbp_refl|].
    pose proof (bump_same i st x (Hl x (or_introl eq_refl)) Hp) as B. destruct B as (B1 & B2 & B).
    eapply sbp_trans; [apply IH|].
    - rewrite B1. intros y Y. apply Hl. now right.
    - now rewrite B1, B2.
    - unfold same_but_prio. intuition.
  Qed.

  Lemma img_index_incl : forall u f, incl (img_index files u f) u.
  Proof.
    intros u f x I. apply in_flat_map in I as (s & Hs & I). apply in_map_iff in I as (y & <- & _). exact Hs.
  Qed.

  (** What one file does, apart from the priorities. *)
  Definition touch (sid : aid) (p : (aid -> list fid) * list (fid * aid)) (f : fid) : (aid -> list fid) * list (fid * aid) :=
    ((if existsb (fun kv => Nat.eqb f (fst kv)) (snd p) then fst p else upd (fst p) sid (fst p sid ++ [f])),
     dict_set Nat.eqb (snd p) f sid).

  Lemma use_files_same : forall u i sid l st, incl u (e_order st) -> pos_ok (e_order st) (e_pos st) ->
    let st' := fold_left (use_file files u i sid) l st in
    e_order st' = e_order st /\ e_pos st' = e_pos st /\ e_sched st' = e_sched st /\ e_id st' = e_id st /\
    e_next st' = e_next st /\ (e_load st', e_last st') = fold_left (touch sid) l (e_load st, e_last st).
  Proof.
    intros u i sid. induction l as [|f l IH]; intros st Hu Hp; cbv zeta; cbn [fold_left].
    - intuition.
    - set (st1 := use_file files u i sid st f).
      assert (S1 : e_order st1 = e_order st /\ e_pos st1 = e_pos st /\ e_sched st1 = e_sched st /\ e_id st1 = e_id st /\
                   e_next st1 = e_next st /\ (e_load st1, e_last st1) = touch sid (e_load st, e_last st) f).
      { unfold st1, use_file. cbv zeta.
        match goal with |- context [fold_left (bump i) ?l ?s] => pose proof (bumps_same i l s) as B end.
        cbn [e_order e_pos] in B. destruct B as (B1 & B2 & B3 & B4 & B5 & B6 & B7).
        - intros x X. apply Hu. eapply img_index_incl. exact X.
        - exact Hp.
        - cbn [e_order e_pos e_sched e_id e_next e_load e_last] in *. rewrite B1, B2, B3, B4, B5, B6, B7. unfold touch. cbn [fst snd].
          intuition. }
      destruct S1 as (A1 & A2 & A3 & A4 & A5 & A6).
      destruct (IH st1) as (C1 & C2 & C3 & C4 & C5 & C6).
      + now rewrite A1.
      + now rewrite A1, A2.
      + split; [congruence|]. split; [congruence|]. split; [congruence|]. split; [congruence|]. split; [congruence|].
        rewrite C6, A6. reflexivity.
  Qed.

  (** The whole loop as a fold over the (unchanging) order. *)
  Lemma enum_loop_spec : forall u n i st, incl u (e_order st) -> pos_ok (e_order st) (e_pos st) ->
    (i + n = length (e_order st))%nat -> NoDup (e_order st) ->
    let st' := enum_loop files u n i st in
    let rest := skipn i (e_order st) in
    e_sched st' = e_sched st ++ rest /\
    (forall k, (k < n)%nat -> e_id st' (nth k rest O) = Some (e_next st + Z.of_nat k)) /\
    (forall x, ~ In x rest -> e_id st' x = e_id st x) /\
    (e_load st', e_last st') = fold_left (fun p s => fold_left (touch s) (need s) p) rest (e_load st, e_last st).
  Proof.
    intros u. induction n as [|n IH]; intros i st Hu Hp Hl Nd; cbv zeta; cbn [enum_loop].
    - rewrite skipn_all2 by lia. rewrite app_nil_r. split; [reflexivity|]. split; [intros; lia|]. split; reflexivity.
    - set (sid := nth i (e_order st) O).
      assert (Es : skipn i (e_order st) = sid :: skipn (S i) (e_order st)).
      { unfold sid. clear - Hl. revert i Hl. generalize (e_order st). induction l as [|x l IHl]; intros i Hl; [cbn in Hl; lia|].
        destruct i as [|i]; [reflexivity|]. cbn [skipn nth]. apply IHl. cbn in Hl. lia. }
      set (st1 := mkEst (e_order st) (e_prio st) (e_pos st) (e_sched st ++ [sid]) (upd (e_id st) sid (Some (e_next st)))
                  (e_next st + 1) (e_load st) (e_last st)).
      destruct (use_files_same u i sid (need sid) st1 Hu Hp) as (A1 & A2 & A3 & A4 & A5 & A6).
      set (st2 := fold_left (use_file files u i sid) (need sid) st1) in *.
      destruct (IH (S i) st2) as (C1 & C2 & C3 & C4).
      + now rewrite A1.
      + now rewrite A1, A2.
      + rewrite A1. cbn. lia.
      + now rewrite A1.
      + rewrite A1 in C1, C2, C3, C4. cbn [e_order st1] in C1, C2, C3, C4. rewrite Es.
        assert (Nr : ~ In sid (skipn (S i) (e_order st))).
        { assert (N2 : NoDup (skipn i (e_order st))).
          { rewrite <- (firstn_skipn i (e_order st)) in Nd. now apply nodup_app in Nd. }
          rewrite Es in N2. now inversion N2. }
        split; [rewrite C1, A3; cbn; now rewrite <- app_assoc|]. split; [|split].
        * intros [|k] Hk; cbn [nth].
          -- rewrite C3, A4 by assumption. cbn. rewrite upd_eq. f_equal. lia.
          -- rewrite C2 by lia. rewrite A5. cbn. f_equal. lia.
        * intros x X. rewrite C3, A4; [cbn|intro Y; apply X; now right]. apply upd_neq. intros ->. apply X. now left.
        * rewrite C4, A6. reflexivity.
  Qed.

  (** ** First and last uses *)
  Definition fkeys (l : list (fid * aid)) : list fid := map fst l.
  Lemma seen_In : forall f (l : list (fid * aid)), existsb (fun kv => Nat.eqb f (fst kv)) l = true <-> In f (fkeys l).
  Proof.
    intros f l. rewrite existsb_exists. unfold fkeys. rewrite in_map_iff. split.
    - intros (kv & I & E). apply Nat.eqb_eq in E. exists kv. auto.
    - intros (kv & E & I). exists kv. split; [exact I|]. apply Nat.eqb_eq. auto.
  Qed.
  Lemma set_keys : forall (l : list (fid * aid)) f s x, In x (fkeys (dict_set Nat.eqb l f s)) <-> x = f \/ In x (fkeys l).
  Proof.
    unfold fkeys. induction l as [|[k v] l IH]; intros f s x; cbn [dict_set map fst In].
    - intuition.
    - destruct (Nat.eqb f k) eqn:E; cbn [map fst In].
      + apply Nat.eqb_eq in E. subst k. intuition.
      + rewrite IH. intuition.
  Qed.
  Lemma set_nodup : forall (l : list (fid * aid)) f s, NoDup (fkeys l) -> NoDup (fkeys (dict_set Nat.eqb l f s)).
  Proof.
    unfold fkeys. induction l as [|[k v] l IH]; intros f s H; cbn [dict_set map fst]; [repeat constructor; intros []|].
    inversion H as [|? ? Hk Hl]; subst. destruct (Nat.eqb f k) eqn:E; cbn [map fst]; [now constructor|].
    constructor; [|now apply IH]. intro I. apply (set_keys l f s k) in I. apply Nat.eqb_neq in E. destruct I as [I|I]; [congruence|tauto].
  Qed.
  Lemma set_In : forall (l : list (fid * aid)) f s x y, NoDup (fkeys l) ->
    (In (x, y) (dict_set Nat.eqb l f s) <-> (x = f /\ y = s) \/ (x <> f /\ In (x, y) l)).
  Proof.
    induction l as [|[k v] l IH]; intros f s x y H; cbn [dict_set In].
    - split; [intros [E|[]]; left; split; congruence|intros [[-> ->]|[_ []]]; now left].
    - unfold fkeys in H. cbn [map fst] in H. inversion H as [|? ? Hk Hl]; subst. destruct (Nat.eqb f k) eqn:E; cbn [In].
      + apply Nat.eqb_eq in E. subst k. split.
        * intros [Q|Q]; [left; split; congruence|]. right. split; [|now right]. intros ->. apply Hk. now apply (in_map fst) in Q.
        * intros [[-> ->]|[Q [Z|Z]]]; [now left|congruence|now right].
      + apply Nat.eqb_neq in E. rewrite IH by exact Hl. split.
        * intros [Q|[Q|Q]]; [right; split; [congruence|now left]|now left|right; split; [tauto|now right; apply Q]].
        * intros [Q|[Q [Z|Z]]]; [right; now left|now left|right; right; now split].
  Qed.

  Record tinv (s : aid) (p : (aid -> list fid) * list (fid * aid)) : Prop := {
    t_keys : NoDup (fkeys (snd p));
    t_load : NoDup (fst p s);
    t_sub : forall f, In f (fst p s) -> In f (fkeys (snd p)) }.
  Lemma touches_spec : forall s l p, tinv s p ->
    let p' := fold_left (touch s) l p in
    tinv s p' /\ (forall x, x <> s -> fst p' x = fst p x) /\
    (forall f, In f (fst p' s) <-> In f (fst p s) \/ (In f l /\ ~ In f (fkeys (snd p)))) /\
    (forall f y, In (f, y) (snd p') <-> (In f l /\ y = s) \/ (~ In f l /\ In (f, y) (snd p))).
  Proof.
    intros s. induction l as [|f l IH]; intros p I; cbv zeta; cbn [fold_left].
    - split; [exact I|]. split; [reflexivity|]. split; intros; cbn [In]; intuition.
    - assert (I1 : tinv s (touch s p f)).
      { destruct I as [K L S]. unfold touch. constructor; cbn [fst snd].
        - now apply set_nodup.
        - destruct (existsb _ _) eqn:E; [exact L|]. rewrite upd_eq. apply NoDup_snoc; [exact L|repeat constructor; intros []|].
          intros x [<-|[]] Y. apply S, seen_In in Y. congruence.
        - intros g G. apply set_keys. destruct (existsb _ _) eqn:E; [right; now apply S|]. rewrite upd_eq in G.
          apply in_app_or in G as [G|[<-|[]]]; [right; now apply S|now left]. }
      destruct (IH _ I1) as (A1 & A2 & A3 & A4). split; [exact A1|]. split; [|split].
      + intros x X. rewrite A2 by exact X. unfold touch. cbn [fst]. destruct (existsb _ _); [reflexivity|]. now apply upd_neq.
      + intro g. rewrite A3. unfold touch. cbn [fst snd In].
        destruct (existsb (fun kv => Nat.eqb f (fst kv)) (snd p)) eqn:E.
        * apply seen_In in E. split.
          -- intros [G|[G N]]; [now left|]. right. split; [now right|]. intro Q. apply N, set_keys. now right.
          -- intros [G|[[<-|G] N]]; [now left|tauto|]. right. split; [exact G|]. intro Q. apply set_keys in Q as [->|Q]; tauto.
        * assert (NE : ~ In f (fkeys (snd p))) by (intro Q; apply seen_In in Q; congruence).
          rewrite upd_eq, in_app_iff. cbn [In]. split.
          -- intros [[G|[<-|[]]]|[G N]]; [now left|right; split; [now left|exact NE]|].
             right. split; [now right|]. intro Q. apply N, set_keys. now right.
          -- intros [G|[[<-|G] N]]; [left; now left|left; right; now left|].
             destruct (Nat.eq_dec g f) as [->|Ng]; [left; right; now left|]. right. split; [exact G|].
             intro Q. apply set_keys in Q as [->|Q]; tauto.
      + intros g y. rewrite A4. unfold touch. cbn [snd In]. rewrite set_In by apply I.
        destruct (in_dec Nat.eq_dec g l) as [Gl|Gl]; [intuition|]. destruct (Nat.eq_dec f g) as [->|Ng]; intuition.
  Qed.

  Definition uses_all (P : list aid) : (aid -> list fid) * list (fid * aid) :=
    fold_left (fun p s => fold_left (touch s) (need s) p) P (fun _ => [], []).

  (** [f] is needed somewhere in [A]. *)
  Definition used (A : list aid) (f : fid) : Prop := exists a, In a A /\ In f (need a).

  Lemma uses_all_spec : forall P, NoDup P ->
    let p := uses_all P in
    NoDup (fkeys (snd p)) /\ (forall f, In f (fkeys (snd p)) <-> used P f) /\
    (forall x, ~ In x P -> fst p x = []) /\ (forall x, NoDup (fst p x)) /\
    (forall x f, In f (fst p x) -> used P f) /\
    (forall A s B f, P = A ++ s :: B -> (In f (fst p s) <-> In f (need s) /\ ~ used A f)) /\
    (forall A s B f, P = A ++ s :: B -> (In (f, s) (snd p) <-> In f (need s) /\ ~ used B f)) /\
    (forall f x, In (f, x) (snd p) -> In x P).
  Proof.
    induction P as [|s P IH] using rev_ind; intro Nd; cbv zeta.
    - unfold uses_all. cbn. split; [constructor|]. split; [intro f; split; [tauto|intros (a & [] & _)]|]. split; [reflexivity|].
      split; [constructor|]. split; [tauto|]. split; [intros A x B f E; destruct A; discriminate|].
      split; [intros A x B f E; destruct A; discriminate|]. tauto.
    - destruct (nodup_app _ _ Nd) as (Nd1 & _ & Nd3). assert (Ns : ~ In s P) by (apply Nd3; now left).
      destruct (IH Nd1) as (K1 & K2 & K3 & K4 & K5 & K6 & K7 & K8).
      assert (E : uses_all (P ++ [s]) = fold_left (touch s) (need s) (uses_all P)).
      { unfold uses_all. rewrite fold_left_app. reflexivity. }
      rewrite E. set (q := uses_all P) in *.
      assert (I : tinv s q).
      { constructor; [exact K1|apply K4|]. intros f F. rewrite K3 in F by exact Ns. destruct F. }
      destruct (touches_spec s (need s) q I) as (A1 & A2 & A3 & A4).
      set (q' := fold_left (touch s) (need s) q) in *.
      assert (KK : forall f, In f (fkeys (snd q')) <-> used (P ++ [s]) f).
      { intro f. unfold fkeys. rewrite in_map_iff. split.
        - intros ([g y] & Eg & G). cbn in Eg. subst g. apply A4 in G as [[G ->]|[_ G]].
          + exists s. split; [apply in_or_app; right; now left|exact G].
          + assert (Z : In f (fkeys (snd q))) by (unfold fkeys; apply in_map_iff; exists (f, y); auto).
            apply K2 in Z as (a & Z1 & Z2). exists a. split; [apply in_or_app; now left|exact Z2].
        - intros (a & Ia & Fa). destruct (in_dec Nat.eq_dec f (need s)) as [D|D].
          + exists (f, s). split; [reflexivity|]. apply A4. left. auto.
          + apply in_app_or in Ia as [Ia|[->|[]]]; [|tauto].
            assert (Z : In f (fkeys (snd q))) by (apply K2; exists a; auto).
            unfold fkeys in Z. apply in_map_iff in Z as ([g y] & Eg & G). cbn in Eg. subst g. exists (f, y). split; [reflexivity|].
            apply A4. right. auto. }
      split; [apply A1|]. split; [exact KK|]. split; [|split; [|split; [|split; [|split]]]].
      + intros x X. assert (x <> s) by (intros ->; apply X, in_or_app; right; now left).
        rewrite A2 by assumption. apply K3. intro Y. apply X, in_or_app. now left.
      + intro x. destruct (Nat.eq_dec x s) as [->|Nx]; [apply A1|]. rewrite A2 by exact Nx. apply K4.
      + intros x f F. destruct (Nat.eq_dec x s) as [->|Nx].
        * apply KK. now apply (t_sub _ _ A1).
        * rewrite A2 in F by exact Nx. destruct (K5 x f F) as (a & Z1 & Z2). exists a. split; [apply in_or_app; now left|exact Z2].
      + intros A x B f EP. symmetry in EP. destruct (split_last _ _ _ _ _ (eq_sym EP)) as [(-> & -> & ->)|(B' & -> & EP')].
        * rewrite A3. rewrite K3 by exact Ns. rewrite K2. cbn [In]. intuition.
        * assert (x <> s) by (intros ->; apply Ns; rewrite EP'; apply in_or_app; right; now left).
          rewrite A2 by assumption. apply (K6 A x B' f EP').
      + intros A x B f EP. destruct (split_last _ _ _ _ _ EP) as [(-> & -> & ->)|(B' & -> & EP')].
        * rewrite A4. assert (~ In (f, s) (snd q)) by (intro Z; apply K8 in Z; tauto).
          assert (U0 : ~ used [] f) by (intros (a & [] & _)). intuition.
        * assert (Nx : x <> s) by (intros ->; apply Ns; rewrite EP'; apply in_or_app; right; now left).
          rewrite A4. rewrite (K7 A x B' f EP'). split.
          -- intros [[_ Q]|[Q1 [Q2 Q3]]]; [congruence|]. split; [exact Q2|]. intros (a & Ia & Fa).
             apply in_app_or in Ia as [Ia|[->|[]]]; [apply Q3; exists a; auto|tauto].
          -- intros [Q1 Q2]. right. split; [|split; [exact Q1|]].
             ++ intro Z. apply Q2. exists s. split; [apply in_or_app; right; now left|exact Z].
             ++ intros (a & Ia & Fa). apply Q2. exists a. split; [apply in_or_app; now left|exact Fa].
      + intros f x F. apply in_or_app. apply A4 in F as [[_ ->]|[_ F]]; [right; now left|left; now apply (K8 f x)].
  Qed.

  (** ** Carrying it out *)
  Lemma load_all_spec : forall l open, NoDup l -> (forall f, In f l -> ~ In f open) ->
    exists open', load_all open l = Some open' /\ (forall f, In f open' <-> In f open \/ In f l).
  Proof.
    induction l as [|f l IH]; intros open N D; cbn [load_all]; [exists open; split; [reflexivity|cbn; tauto]|].
    inversion N as [|? ? Nf Nl]; subst. assert (M : mem f open = false) by (apply mem_notIn, D; now left). rewrite M.
    destruct (IH (f :: open) Nl) as (o & E & H).
    - intros g G [<-|Q]; [tauto|]. apply (D g); [now right|exact Q].
    - exists o. split; [exact E|]. intro g. rewrite H. cbn [In]. intuition.
  Qed.
  Lemma unload_all_spec : forall l open, NoDup l -> incl l open ->
    exists open', unload_all open l = Some open' /\ (forall f, In f open' <-> In f open /\ ~ In f l).
  Proof.
    induction l as [|f l IH]; intros open N D; cbn [unload_all]; [exists open; split; [reflexivity|cbn; tauto]|].
    inversion N as [|? ? Nf Nl]; subst. assert (M : mem f open = true) by (apply mem_In, D; now left). rewrite M.
    destruct (IH (filter (fun x => negb (Nat.eqb f x)) open) Nl) as (o & E & H).
    - intros g G. apply filter_In. split; [apply D; now right|]. destruct (Nat.eqb f g) eqn:Q; [|reflexivity].
      apply Nat.eqb_eq in Q. subst g. tauto.
    - exists o. split; [exact E|]. intro g. rewrite H, filter_In. cbn [In].
      destruct (Nat.eqb f g) eqn:Q; [apply Nat.eqb_eq in Q|apply Nat.eqb_neq in Q]; cbn [negb]; intuition; discriminate.
  Qed.

  Lemma used_dec : forall A f, used A f \/ ~ used A f.
  Proof.
    intros A f. destruct (existsb (fun a => mem f (need a)) A) eqn:E.
    - left. apply existsb_exists in E as (a & I & M). apply mem_In in M. exists a. auto.
    - right. intros (a & I & M). assert (existsb (fun a => mem f (need a)) A = true); [|congruence].
      apply existsb_exists. exists a. split; [exact I|now apply mem_In].
  Qed.
  Lemma used_cons : forall a A f, used (a :: A) f <-> In f (need a) \/ used A f.
  Proof.
    intros a A f. split.
    - intros (x & [<-|I] & F); [now left|right; exists x; auto].
    - intros [F|(x & I & F)]; [exists a; split; [now left|exact F]|exists x; split; [now right|exact F]].
  Qed.
  Lemma used_snoc : forall a A f, used (A ++ [a]) f <-> used A f \/ In f (need a).
  Proof.
    intros a A f. split.
    - intros (x & I & F). apply in_app_or in I as [I|[<-|[]]]; [left; exists x; auto|now right].
    - intros [(x & I & F)|F]; [exists x; split; [apply in_or_app; now left|exact F]|exists a; split; [apply in_or_app; right; now left|exact F]].
  Qed.

  Lemma carry_out_spec : forall (L U : aid -> list fid) P, (forall s, NoDup (L s)) -> (forall s, NoDup (U s)) ->
    (forall A s B f, P = A ++ s :: B -> (In f (L s) <-> In f (need s) /\ ~ used A f)) ->
    (forall A s B f, P = A ++ s :: B -> (In f (U s) <-> In f (need s) /\ ~ used B f)) ->
    forall B A open, P = A ++ B -> (forall f, In f open <-> used A f /\ used B f) ->
    carry_out files open (map (fun s => mkEntry s (L s) (U s)) B) = Some [].
  Proof.
    intros L U P NL NU HL HU. induction B as [|s B IH]; intros A open EP HO; cbn [map carry_out].
    - f_equal. destruct open as [|f o]; [reflexivity|]. exfalso. destruct (proj1 (HO f) (or_introl eq_refl)) as [_ (b & [] & _)].
    - cbn [en_load en_unload en_sprite].
      destruct (load_all_spec (L s) open (NL s)) as (o1 & E1 & H1).
      { intros f F Q. apply (HL A s B f EP) in F as [_ F]. apply HO in Q as [Q _]. tauto. }
      rewrite E1. clear E1.
      assert (NF : forallb (fun f => mem f o1) (need s) = true).
      { apply forallb_forall. intros f F. apply mem_In, H1. destruct (used_dec A f) as [D|D].
        - left. apply HO. split; [exact D|]. apply used_cons. now left.
        - right. apply (HL A s B f EP). auto. }
      rewrite NF. clear NF.
      destruct (unload_all_spec (U s) o1 (NU s)) as (o2 & E2 & H2).
      { intros f F. apply H1. apply (HU A s B f EP) in F as [F1 F2]. destruct (used_dec A f) as [D|D].
        - left. apply HO. split; [exact D|]. apply used_cons. now left.
        - right. apply (HL A s B f EP). auto. }
      rewrite E2. apply (IH (A ++ [s]) o2); [rewrite <- app_assoc; exact EP|].
      intro f. rewrite H2, H1, HO, used_cons, used_snoc, (HL A s B f EP), (HU A s B f EP).
      destruct (used_dec A f), (used_dec B f), (in_dec Nat.eq_dec f (need s)); intuition.
  Qed.

  (** ** The result *)
  Section R.
    Variable ids0 : aid -> option Z.
    Variable sprites : list aid.
    Hypothesis Nd : NoDup (resources files sprites).
    Definition plain := filter plainb sprites.
    Definition lorder := sort_by (fun s => Z.of_nat (length (need s))) (filter loadedb sprites).

    Lemma res_split : Permutation (resources files sprites) (plain ++ filter loadedb sprites).
    Proof.
      unfold plain, resources. clear. induction sprites as [|s l IH]; [reflexivity|]. cbn [filter]. unfold plainb at 1, loadedb at 1.
      destruct (files s) as [[|f r]|]; cbn [app]; [now constructor|now apply Permutation_cons_app|exact IH].
    Qed.
    Lemma res_perm : Permutation (plain ++ lorder) (resources files sprites).
    Proof. rewrite res_split. apply Permutation_app_head, sort_perm. Qed.
    Lemma all_nodup : NoDup (plain ++ lorder).
    Proof. eapply Permutation_NoDup; [symmetry; apply res_perm|exact Nd]. Qed.
    Lemma plain_need : forall s, In s plain -> need s = [].
    Proof. intros s I. apply filter_In in I as [_ I]. unfold plainb in I. unfold SchedModel.need. destruct (files s) as [[|? ?]|]; congruence. Qed.

    Lemma enumerate_spec :
      let st := enumerate_state files ids0 sprites in
      e_sched st = plain ++ lorder /\
      map (e_id st) (e_sched st) = map Some (numbers (length (e_sched st))) /\
      (e_load st, e_last st) = uses_all lorder.
    Proof.
      cbv zeta. unfold enumerate_state.
      pose proof (number_plain_spec sprites [] ids0 1 []) as N. cbn [app] in N.
      destruct (number_plain files sprites ([], ids0, 1, [])) as [[[o i] n] u].
      destruct (N Nd eq_refl eq_refl) as (-> & -> & N3 & N4). clear N.
      fold plain in *. cbv zeta. fold lorder.
      pose proof all_nodup as NA. destruct (nodup_app _ _ NA) as (NA1 & NA2 & NA3).
      match goal with |- context [enum_loop files ?u ?n ?i ?s] => pose proof (enum_loop_spec u n i s) as E; set (st := enum_loop files u n i s) in * end.
      cbn [e_order e_pos e_sched e_id e_next e_load e_last] in E. cbv zeta in E. cbn [skipn] in E.
      destruct E as (E1 & E2 & E3 & E4).
      - intros x X. unfold lorder. eapply Permutation_in; [symmetry; apply sort_perm|exact X].
      - intros x X. destruct (positions_ok lorder 0 (fun _ => O) NA2) as [Q _]. destruct (Q x X) as (k & Ek & Ex).
        cbn [Nat.add] in Ek. now rewrite Ek.
      - reflexivity.
      - exact NA2.
      - split; [exact E1|]. split; [|exact E4].
        rewrite E1, map_app. unfold numbers. rewrite app_length, seq_app, !map_app. f_equal.
        + fold (numbers (length plain)). rewrite <- N4. apply map_ext_in. intros x X. apply E3. intro Y. now apply (NA3 x).
        + apply nth_ext with (d := Some 0) (d' := Some 0); rewrite !map_length; [now rewrite seq_length|].
          intros k Hk. rewrite (nth_indep _ (Some 0) (e_id st O)) by (rewrite map_length; exact Hk).
          rewrite map_nth, E2 by exact Hk. rewrite N3.
          change (Some 0) with (Some (Z.of_nat 0)). rewrite map_nth, map_nth, seq_nth by exact Hk. f_equal. lia.
    Qed.

    Lemma ids_spec : let '(sched, ids) := enumerate_sprites files ids0 sprites in
      Permutation (map en_sprite sched) (resources files sprites) /\
      map ids (map en_sprite sched) = map Some (numbers (length sched)).
    Proof.
      unfold enumerate_sprites. destruct enumerate_spec as (E1 & E2 & _). set (st := enumerate_state files ids0 sprites) in *.
      cbv zeta. rewrite map_map, map_length. cbn [en_sprite]. rewrite map_id. split; [rewrite E1; apply res_perm|exact E2].
    Qed.

    Lemma order_spec : map en_sprite (fst (enumerate_sprites files ids0 sprites)) = plain ++ lorder.
    Proof.
      unfold enumerate_sprites. destruct enumerate_spec as (E1 & _). cbv zeta. cbn [fst]. rewrite map_map. cbn [en_sprite]. now rewrite map_id.
    Qed.

    Lemma unload_In : forall last s f, In f (unload_of last s) <-> In (f, s) last.
    Proof.
      intros last s f. unfold unload_of. rewrite in_map_iff. split.
      - intros ([g y] & E & I). cbn in E. subst g. apply filter_In in I as [I E]. cbn in E. apply Nat.eqb_eq in E. now subst.
      - intro I. exists (f, s). split; [reflexivity|]. apply filter_In. split; [exact I|]. apply Nat.eqb_refl.
    Qed.
    Lemma unload_nodup : forall last s, NoDup (fkeys last) -> NoDup (unload_of last s).
    Proof.
      unfold unload_of, fkeys. induction last as [|[f y] last IH]; intros s N; cbn [filter map]; [constructor|].
      cbn [map fst] in N. inversion N as [|? ? N1 N2]; subst. cbn [snd]. destruct (Nat.eqb s y); cbn [map fst]; [|now apply IH].
      constructor; [|now apply IH]. intro I. apply in_map_iff in I as (kv & E & I). apply filter_In in I as [I _].
      apply N1, in_map_iff. exists kv. auto.
    Qed.

    Lemma flat_nodup : forall (L : aid -> list fid) P, (forall s, NoDup (L s)) -> NoDup P ->
      (forall A s B f, P = A ++ s :: B -> (In f (L s) <-> In f (need s) /\ ~ used A f)) -> NoDup (flat_map L P).
    Proof.
      intros L P NL. induction P as [|s P IH] using rev_ind; intros NP HL; [constructor|].
      destruct (nodup_app _ _ NP) as (NP1 & _). rewrite flat_map_app. cbn [flat_map]. rewrite app_nil_r.
      apply NoDup_snoc; [apply IH; [exact NP1|]|apply NL|].
      - intros A x B f E. apply (HL A x (B ++ [s])). rewrite E, <- app_assoc. reflexivity.
      - intros f F I. apply (HL P s [] f eq_refl) in F as [_ F]. apply F. apply in_flat_map in I as (x & Ix & Fx).
        apply in_split in Ix as (A & B & E). exists x. split; [rewrite E; apply in_or_app; right; now left|].
        apply (HL A x (B ++ [s]) f); [rewrite E, <- app_assoc; reflexivity|exact Fx].
    Qed.

    Lemma schedule_spec : let sched := fst (enumerate_sprites files ids0 sprites) in
      carry_out files [] sched = Some [] /\
      NoDup (flat_map en_load sched) /\
      (forall e, In e sched -> incl (en_load e) (need (en_sprite e)) /\ incl (en_unload e) (need (en_sprite e))).
    Proof.
      cbv zeta. unfold enumerate_sprites. destruct enumerate_spec as (E1 & _ & E3). set (st := enumerate_state files ids0 sprites) in *.
      cbv zeta. cbn [fst]. pose proof all_nodup as NA. destruct (nodup_app _ _ NA) as (NA1 & NA2 & NA3).
      destruct (uses_all_spec lorder NA2) as (K1 & K2 & K3 & K4 & K5 & K6 & K7 & K8). rewrite <- E3 in *. cbn [fst snd] in *.
      rewrite E1.
      assert (PL : forall s, In s plain -> e_load st s = [] /\ unload_of (e_last st) s = []).
      { intros s I. split; [apply K3; intro Q; now apply (NA3 s)|].
        destruct (unload_of (e_last st) s) as [|f l] eqn:E; [reflexivity|]. exfalso.
        assert (Q : In f (unload_of (e_last st) s)) by (rewrite E; now left). apply unload_In, K8 in Q. now apply (NA3 s). }
      assert (NU : forall s, NoDup (unload_of (e_last st) s)) by (intro; now apply unload_nodup).
      assert (HU : forall A s B f, lorder = A ++ s :: B -> (In f (unload_of (e_last st) s) <-> In f (need s) /\ ~ used B f)).
      { intros A s B f E. rewrite unload_In. now apply (K7 A). }
      split; [|split].
      - rewrite map_app. assert (G : forall P, incl P plain -> forall r, carry_out files []
          (map (fun s => mkEntry s (e_load st s) (unload_of (e_last st) s)) P ++ r) = carry_out files [] r).
        { induction P as [|s P IH]; intros HP r; [reflexivity|]. cbn [map app carry_out en_load en_unload en_sprite].
          destruct (PL s (HP s (or_introl eq_refl))) as [-> ->]. cbn [load_all]. rewrite (plain_need s (HP s (or_introl eq_refl))).
          cbn [forallb unload_all]. apply IH. intros x X. apply HP. now right. }
        rewrite G by apply incl_refl. apply (carry_out_spec _ _ lorder K4 NU K6 HU lorder [] []); [reflexivity|].
        intro f. split; [intros []|intros [(a & [] & _) _]].
      - rewrite flat_map_concat_map, map_map. cbn [en_load]. rewrite <- flat_map_concat_map, flat_map_app.
        assert (G : flat_map (fun x => e_load st x) plain = []).
        { clear - PL. revert PL. generalize plain. induction l as [|s P IH]; intro PL; [reflexivity|]. cbn [flat_map].
          rewrite (proj1 (PL s (or_introl eq_refl))). apply IH. intros x X. apply PL. now right. }
        rewrite G. cbn [app]. exact (flat_nodup (e_load st) lorder K4 NA2 K6).
      - intros e I. apply in_map_iff in I as (s & <- & I). cbn [en_load en_unload en_sprite].
        apply in_app_or in I as [I|I]; [destruct (PL s I) as [-> ->]; split; intros x []|].
        apply in_split in I as (A & B & E). split; intros f F; [apply (K6 A s B f E) in F|apply (HU A s B f E) in F]; apply F.
    Qed.
  End R.
End S.
