(** Proofs for C22 (register allocator) and C23 (comparison simplification). *)
From Coq Require Import ZArith List Bool Lia ZifyBool.
From Verif Require Import Base BaseFacts CommonModel CommonProofs RecordsModel RecordsProofs Action14Model
  Action14Proofs VA2Model SpecVA2 VA2Proofs.
Import ListNotations.
Open Scope Z_scope.

(** ** C22 *)
Record hinv (held : list Z) (names : list (name * Z)) (c : ctx) : Prop := {
  h_inv : inv c;
  h_used : forall r, In r (c_used c) <-> In r (taken held names);
  h_nd : NoDup (taken held names);
  h_vars : forall x, vget c x = dict_get bytes_eqb names x }.

Lemma dict_get_notin : forall (l : list (name * Z)) x, ~ In x (map fst l) -> dict_get bytes_eqb l x = None.
Proof.
  induction l as [|[k v] l IH]; intros x H; cbn [dict_get map fst] in *; [reflexivity|].
  destruct (bytes_eqb x k) eqn:E; [|apply IH; intro; apply H; now right].
  apply bytes_eqb_iff in E; subst. exfalso; apply H; now left.
Qed.
Lemma dict_get_in : forall (l : list (name * Z)) x, In x (map fst l) -> exists r, dict_get bytes_eqb l x = Some r.
Proof.
  induction l as [|[k v] l IH]; intros x H; cbn [dict_get map fst] in *; [easy|].
  destruct (bytes_eqb x k) eqn:E; [eauto|]. destruct H as [->|H]; [|auto].
  rewrite (proj2 (bytes_eqb_iff x x) eq_refl) in E. discriminate.
Qed.
Lemma dict_get_val : forall (l : list (name * Z)) x r, dict_get bytes_eqb l x = Some r -> In (x, r) l.
Proof.
  induction l as [|[k v] l IH]; intros x r H; cbn [dict_get] in *; [discriminate|].
  destruct (bytes_eqb x k) eqn:E; [|right; auto]. apply bytes_eqb_iff in E; subst. injection H as ->. now left.
Qed.

Lemma history_inv : forall subs held names c, history subs held names c -> hinv held names c.
Proof.
  intros subs held names c H. induction H as [|held names c r c' H [I U N V] R|held names c l1 r l2 c' H [I U N V] E R
    |held names c x r c' H [I U N V] X R|held names c x r c' H [I U N V] X R].
  - constructor; [apply inv_init|intro; reflexivity|constructor|reflexivity].
  - destruct (reserve_ok _ _ _ I R) as [I' [Nr [Hr [U' [V' _]]]]].
    constructor; [assumption| | |].
    + intro i. rewrite U'. unfold taken. cbn [app In]. rewrite U. reflexivity.
    + unfold taken. cbn [app]. constructor; [now rewrite <- U|assumption].
    + intro x. unfold vget. rewrite V'. apply V.
  - subst held. unfold release_register in R. inv_opt.
    assert (HU : forall i, In i (filter (fun i => negb (i =? r)) (c_used c)) <-> In i (taken (l1 ++ l2) names)).
    { intro i. rewrite filter_In, negb_true_iff, Z.eqb_neq, U. clear U V H. unfold taken in *.
      rewrite <- !app_assoc in *. cbn [app] in *. apply NoDup_remove in N as [_ N].
      rewrite !in_app_iff in *. cbn [In]. rewrite !in_app_iff. split.
      - intros [H0 H1]. intuition congruence.
      - intros [?|[?|?]]; (split; [tauto|intros ->; apply N; tauto]). }
    constructor; cbn [c_used c_vars].
    + constructor; unfold vget; cbn [c_used c_min c_vars].
      * intros i Hi. apply filter_In in Hi as [Hi _]. now apply (i_range _ I).
      * pose proof (i_min _ I). apply memz_In in C. pose proof (i_range _ I r C). lia.
      * intros i Hi. rewrite filter_In, negb_true_iff, Z.eqb_neq. split; [apply (i_low _ I)|]; lia.
      * intros x i Hx. apply HU. unfold taken. fold (vget c x) in Hx. rewrite V in Hx.
        apply in_or_app. right. apply dict_get_val in Hx. now apply (in_map snd) in Hx.
      * apply (i_inj _ I).
    + exact HU.
    + unfold taken in *. rewrite <- app_assoc in *. cbn [app] in N. now apply NoDup_remove_1 in N.
    + intro x. apply V.
  - unfold reserve_variable in R. fold (vget c x) in R. rewrite V, dict_get_notin in R by assumption.
    apply bind_some in R as [[r' c1] [R1 R]]. cbv beta iota in R. injection R as <- <-.
    destruct (reserve_ok _ _ _ I R1) as [I' [Nr [Hr [U' [V' _]]]]].
    assert (HU : forall i, In i (c_used c1) <-> In i (taken held ((x, r') :: names))).
    { intro i. rewrite U'. unfold taken in *. cbn [map snd In]. rewrite U, !in_app_iff. cbn [In]. tauto. }
    assert (HV : forall y, dict_get bytes_eqb (dict_set bytes_eqb (c_vars c1) x r') y =
                 dict_get bytes_eqb ((x, r') :: names) y).
    { intro y. rewrite dict_get_set. cbn [dict_get]. rewrite V'. destruct (bytes_eqb y x); [reflexivity|apply V]. }
    constructor; cbn [c_used c_vars].
    + constructor; unfold vget; cbn [c_used c_min c_vars].
      * apply (i_range _ I').
      * apply (i_min _ I').
      * apply (i_low _ I').
      * intros y i Hy. rewrite HV in Hy. apply HU. apply dict_get_val in Hy. apply (in_map snd) in Hy.
        unfold taken. apply in_or_app. now right.
      * intros y z i Hy Hz. rewrite dict_get_set in Hy, Hz.
        destruct (bytes_eqb y x) eqn:Ey, (bytes_eqb z x) eqn:Ez.
        -- apply bytes_eqb_iff in Ey, Ez. congruence.
        -- injection Hy as <-. exfalso. apply Nr. rewrite V' in Hz. now apply (i_vars _ I z).
        -- injection Hz as <-. exfalso. apply Nr. rewrite V' in Hy. now apply (i_vars _ I y).
        -- rewrite V' in Hy, Hz. now apply (i_inj _ I y z i).
    + exact HU.
    + unfold taken in *. cbn [map snd]. apply NoDup_Add with (a := r') (l := held ++ map snd names);
        [apply Add_app|]. split; [assumption|now rewrite <- U].
    + intro y. apply HV.
  - unfold reserve_variable in R. fold (vget c x) in R. rewrite V in R.
    destruct (dict_get_in _ _ X) as [r' E]. rewrite E in R. injection R as <- <-. now constructor.
Qed.

Lemma alloc_fresh : forall subs held names c r c', history subs held names c ->
  reserve_register c = Some (r, c') ->
  128 <= r <= 255 /\ ~ In r (taken held names) /\ forall i, 128 <= i < r -> In i (taken held names).
Proof.
  intros subs held names c r c' H R. destruct (history_inv _ _ _ _ H) as [I U N V].
  destruct (reserve_ok _ _ _ I R) as [_ [Nr [Hr [_ [_ [_ L]]]]]].
  split; [lia|]. split; [now rewrite <- U|]. intros i Hi. apply U. now apply L.
Qed.

Lemma alloc_full : forall subs held names c, history subs held names c ->
  reserve_register c = None <-> forall r, 128 <= r <= 255 -> In r (taken held names).
Proof.
  intros subs held names c H. destruct (history_inv _ _ _ _ H) as [I U N V]. split.
  - intros R r Hr. apply U. unfold reserve_register in R.
    destruct (find _ _) eqn:E in R; [discriminate|].
    destruct (Z_lt_dec r (c_min c)); [apply (i_low _ I); lia|].
    pose proof (find_zrange_none _ _ _ E r ltac:(lia)) as F. cbv beta in F.
    apply negb_false_iff, memz_In in F. assumption.
  - intro F. destruct (reserve_register c) as [[r c']|] eqn:R; [|reflexivity].
    destruct (alloc_fresh _ _ _ _ _ _ H R) as [Hr [Nr _]]. exfalso. apply Nr, F, Hr.
Qed.

Lemma alloc_nodup : forall subs held names c, history subs held names c ->
  NoDup (taken held names) /\ forall r, In r (taken held names) -> 128 <= r <= 255.
Proof.
  intros subs held names c H. destruct (history_inv _ _ _ _ H) as [I U N V]. split; [assumption|].
  intros r Hr. apply U, (i_range _ I) in Hr. lia.
Qed.

Lemma alloc_name : forall subs held names c x, history subs held names c ->
  (forall r, In (x, r) names -> reserve_variable c x = Some (r, c) /\ get_variable_register c x = Some r) /\
  (~ In x (map fst names) -> get_variable_register c x = None /\
     match reserve_variable c x with
     | Some (r, c') => 128 <= r <= 255 /\ ~ In r (taken held names)
     | None => forall r, 128 <= r <= 255 -> In r (taken held names)
     end).
Proof.
  intros subs held names c x H. pose proof (history_inv _ _ _ _ H) as [I U N V].
  unfold reserve_variable, get_variable_register. fold (vget c x). rewrite V. split.
  - intros r Hr. assert (E : dict_get bytes_eqb names x = Some r); [|now rewrite E].
    destruct (dict_get_in names x) as [r' E]; [now apply (in_map fst) in Hr|].
    rewrite E. f_equal.
    assert (G : forall l : list (name * Z), (forall y i j, In (y, i) l -> In (y, j) l -> i = j) ->
      In (x, r) l -> dict_get bytes_eqb l x = Some r' -> r' = r).
    { intros l Hl Hi Hg. apply dict_get_val in Hg. eapply Hl; eauto. }
    apply (G names); auto. clear - H. induction H as [|? ? ? ? ? H IH| ? ? ? ? ? ? ? H IH| ? ? ? ? ? ? H IH Hx R| ? ? ? ? ? ? H IH]; auto.
    + intros ? ? ? [].
    + intros y i j [Hi|Hi] [Hj|Hj]; try congruence; [injection Hi as <- <-|injection Hj as <- <-|now apply (IH y)].
      * exfalso. apply Hx. now apply (in_map fst) in Hj.
      * exfalso. apply Hx. now apply (in_map fst) in Hi.
  - intro X. rewrite dict_get_notin by assumption. split; [reflexivity|].
    destruct (reserve_register c) as [[r c']|] eqn:R; cbn [bind].
    + destruct (alloc_fresh _ _ _ _ _ _ H R) as [Hr [Nr _]]. split; assumption.
    + now apply (alloc_full _ _ _ _ H).
Qed.

Lemma alloc_release : forall subs l1 r l2 names c, history subs (l1 ++ r :: l2) names c ->
  exists c', release_register c r = Some c'.
Proof.
  intros subs l1 r l2 names c H. destruct (history_inv _ _ _ _ H) as [I U N V].
  unfold release_register. assert (memz r (c_used c) = true) as ->; [|eauto].
  apply memz_In, U. unfold taken. rewrite !in_app_iff. left; right; now left.
Qed.

(** ** C23 *)
Lemma dg_pair : forall (l : list ((Z * Z) * pdict)) x v, dict_get pair_eqb l x = Some v -> In (x, v) l.
Proof.
  induction l as [|[k w] l IH]; intros x v H; cbn [dict_get] in H; [discriminate|].
  destruct (pair_eqb x k) eqn:E; [|right; auto]. injection H as ->. left.
  unfold pair_eqb in E. destruct x, k. cbn [fst snd] in E. f_equal. f_equal; lia.
Qed.
Lemma dg_z : forall (l : list (Z * Z)) x v, dict_get Z.eqb l x = Some v -> In (x, v) l.
Proof.
  induction l as [|[k w] l IH]; intros x v H; cbn [dict_get] in H; [discriminate|].
  destruct (x =? k) eqn:E; [|right; auto]. injection H as ->. left. f_equal. lia.
Qed.
Lemma simp_step : forall root op a b r, simp_loop root op a b = Some r ->
  exists op' a1 b1 v root', a = NExpr op' a1 b1 /\ b = NValue v /\ In ((op, v), root') (pd_subs root) /\
   ((exists k, In (op', k) (pd_ops root') /\ r = (k, a1, b1)) \/ simp_loop root' op' a1 b1 = Some r).
Proof.
  intros root op a b r H. destruct a; try discriminate H. destruct b; try discriminate H. cbn [simp_loop] in H.
  destruct (dict_get pair_eqb (pd_subs root) (op, v)) as [root'|] eqn:E; [|discriminate].
  apply dg_pair in E. exists op0, a1, a2, v, root'. do 3 (split; [auto|]).
  destruct (dict_get Z.eqb (pd_ops root') op0) as [k|] eqn:E2; [|now right].
  apply dg_z in E2. injection H as <-. left; eauto.
Qed.

Ltac in_cases H :=
  cbn [pd_subs pd_ops In] in H; repeat (destruct H as [H|H]; [injection H as; subst|]); try contradiction.

Lemma simp_loop_inv : forall op a b k a' b', simp_loop NML_OPE_PARSE op a b = Some (k, a', b') ->
  NExpr op a b = mk_binop k a' b' /\ (k < 0) /\ (0 <= op) /\
  (node_size a' + node_size b' < node_size a + node_size b)%nat /\
  (plain a = true -> plain a' = true /\ plain b' = true).
Proof.
  intros op a b k a' b' H.
  let d := eval vm_compute in NML_OPE_PARSE in change NML_OPE_PARSE with d in H.
  assert (Fin : forall op' v, NExpr op (NExpr op' a' b') (NValue v) = mk_binop k a' b' -> k < 0 -> 0 <= op ->
     NExpr op (NExpr op' a' b') (NValue v) = mk_binop k a' b' /\ (k < 0) /\ (0 <= op) /\
  (node_size a' + node_size b' < node_size (NExpr op' a' b') + node_size (NValue v))%nat /\
  (plain (NExpr op' a' b') = true -> plain a' = true /\ plain b' = true)).
  { intros. repeat split; auto; try (cbn [node_size]; lia); cbn [plain] in *; rewrite !andb_true_iff in *; tauto. }
  assert (Fin2 : forall op' v op'' v', NExpr op (NExpr op' (NExpr op'' a' b') (NValue v')) (NValue v) = mk_binop k a' b' -> k < 0 -> 0 <= op ->
     NExpr op (NExpr op' (NExpr op'' a' b') (NValue v')) (NValue v) = mk_binop k a' b' /\ (k < 0) /\ (0 <= op) /\
  (node_size a' + node_size b' < node_size (NExpr op' (NExpr op'' a' b') (NValue v')) + node_size (NValue v))%nat /\
  (plain (NExpr op' (NExpr op'' a' b') (NValue v')) = true -> plain a' = true /\ plain b' = true)).
  { intros. repeat split; auto; try (cbn [node_size]; lia); cbn [plain] in *; rewrite !andb_true_iff in *; tauto. }
  apply simp_step in H as [op1 [a1 [b1 [v1 [r1 [-> [-> [I1 H]]]]]]]].
  in_cases I1; (destruct H as [[k1 [K E]]|H]; [injection E as <- <- <-; in_cases K; apply Fin; (reflexivity || lia)|]);
  (apply simp_step in H as [op2 [a2 [b2 [v2 [r2 [-> [-> [I2 H]]]]]]]]; in_cases I2;
   (destruct H as [[k2 [K E]]|H]; [injection E as <- <- <-; in_cases K; apply Fin2; (reflexivity || lia)|]);
   (apply simp_step in H as [op3 [a3 [b3 [v3 [r3 [-> [-> [I3 H]]]]]]]]; in_cases I3)).
Qed.

Lemma simp_val : forall n p v, simplify_f n p = NValue v <-> p = NValue v.
Proof.
  intros [|n] p v; cbn [simplify_f]; [reflexivity|].
  destruct p; try (split; congruence).
  destruct (simp_loop _ _ _ _) as [[[? ?] ?]|]; split; congruence.
Qed.
Lemma simp_simple : forall n e, is_simple (simplify_f n e) = is_simple e.
Proof.
  intros [|n] e; [reflexivity|]. destruct e; cbn [simplify_f]; try reflexivity.
  - destruct (simp_loop _ _ _ _) as [[[? ?] ?]|]; reflexivity.
  - cbn [is_simple]. pose proof (simp_val n e) as H. destruct e; try (destruct (simplify_f n _); try reflexivity;
      specialize (H v); destruct H as [H _]; now discriminate H).
    rewrite (proj2 (H v) eq_refl). reflexivity.
  - cbn [is_simple]. pose proof (simp_val n e) as H. destruct e; try (destruct (simplify_f n _); try reflexivity;
      specialize (H v); destruct H as [H _]; now discriminate H).
    rewrite (proj2 (H v) eq_refl). reflexivity.
  - cbn [is_simple]. pose proof (simp_val n e) as H. destruct e; try (destruct (simplify_f n _); try reflexivity;
      specialize (H v); destruct H as [H _]; now discriminate H).
    rewrite (proj2 (H v) eq_refl). reflexivity.
Qed.

Section Simp.
Variable A : Type.
Variable G : game A.
Variable ok : Z -> bool.
Variable tab : name -> option vdata.
Variable subs : list (name * sub_ref).
Notation ev := (eval G ok tab subs).

Definition operands (a b : node) (s : ust A) : option (Z * Z * ust A) :=
  if is_simple b then do (va, s) <- ev a s; do (vb, s) <- ev b s; Some (va, vb, s)
  else do (vb, s) <- ev b s; do (va, s) <- ev a s; Some (va, vb, s).

Lemma ev_bin : forall k x y s, k <> 14 -> k <> 16 ->
  ev (NExpr k x y) s = do (va, vb, s) <- operands x y s; do r <- xarith k va vb; Some (r, s).
Proof.
  intros k x y s H1 H2. cbn [eval]. unfold operands.
  destruct (k =? 14) eqn:E1; [lia|]. destruct (k =? 16) eqn:E2; [lia|]. reflexivity.
Qed.
Lemma ev_const : forall k x v s, k <> 14 -> k <> 16 ->
  ev (NExpr k x (NValue v)) s = do (va, s) <- ev x s; do r <- xarith k va (u32 v); Some (r, s).
Proof.
  intros k x v s H1 H2. rewrite ev_bin by assumption. unfold operands. cbn [is_simple].
  destruct (ev x s) as [[va s1]|]; reflexivity.
Qed.

Lemma land1 : forall x, Z.land x 1 = b2z (Z.testbit x 0).
Proof.
  intro x. change 1 with (Z.ones 1). rewrite Z.land_ones by lia. change (2 ^ 1) with 2.
  rewrite <- Z.bit0_mod. reflexivity.
Qed.

Lemma hasbit_lem : forall a b, Z.land (u32 (Z.shiftr (u32 a) (u32 b mod 32))) 1 =
  b2z (Z.testbit (u32 a) (u32 b mod 32)).
Proof.
  intros a b. rewrite land1, u32_id.
  2:{ apply shiftr_rng; [apply u32_rng|]. apply Z.mod_pos_bound; lia. }
  rewrite Z.shiftr_spec, Z.add_0_l by lia. reflexivity.
Qed.

Lemma binop_ev : forall k x y s, ev (mk_binop k x y) s = ev (NExpr k x y) s.
Proof.
  intros k x y s. unfold mk_binop, nml_ope, OPE_LT, OPE_GT, OPE_LE, OPE_GE, OPE_EQ, OPE_NEQ, OPE_HASBIT, OPE_NHASBIT,
    OP_CMP, OP_MIN, OP_XOR, OP_SUB, OP_MAX, OP_AND, OP_SHRU.
  repeat match goal with
  | |- context [if k =? ?n then _ else _] =>
      let E := fresh "E" in destruct (k =? n) eqn:E; [apply Z.eqb_eq in E; subst k|]
  end; try reflexivity;
  repeat rewrite ev_const by lia; rewrite ev_bin by lia; rewrite ev_bin by lia;
  (destruct (operands x y s) as [[[va vb] s1]|]; [|reflexivity]); cbn [bind xarith arith];
  try (match goal with |- context [s32 va =? s32 vb] => idtac end; generalize (s32 va) (s32 vb); intros p q;
       destruct (p =? q) eqn:Epq; destruct (p <? q) eqn:Lpq; try (exfalso; lia);
       repeat match goal with
       | |- context [q <? p] => first [assert (X : (q <? p) = true) by lia | assert (X : (q <? p) = false) by lia]; rewrite X; clear X
       | |- context [q <=? p] => first [assert (X : (q <=? p) = true) by lia | assert (X : (q <=? p) = false) by lia]; rewrite X; clear X
       | |- context [p <=? q] => first [assert (X : (p <=? q) = true) by lia | assert (X : (p <=? q) = false) by lia]; rewrite X; clear X
       end; rewrite ?Epq, ?Lpq; vm_compute; reflexivity).
  - change (u32 (u32 1)) with 1. rewrite hasbit_lem. reflexivity.
  - change (u32 (u32 1)) with 1. rewrite hasbit_lem.
    destruct (Z.testbit (u32 va) (u32 vb mod 32)); reflexivity.
Qed.

Lemma expr_cong : forall op a b a' b' s, (forall s, ev a' s = ev a s) -> (forall s, ev b' s = ev b s) ->
  is_simple b' = is_simple b -> ev (NExpr op a' b') s = ev (NExpr op a b) s.
Proof.
  intros op a b a' b' s Ha Hb Hs. cbn [eval]. rewrite Hs. destruct (is_simple b).
  - rewrite Ha. destruct (ev a s) as [[va s1]|]; [|reflexivity]. cbn [bind]. now rewrite Hb.
  - rewrite Hb. destruct (ev b s) as [[vb s1]|]; [|reflexivity]. cbn [bind]. now rewrite Ha.
Qed.

Lemma not_val : forall (T : Type) p (f : Z -> T) (g : T), (forall v, p <> NValue v) ->
  match p with NValue v => f v | _ => g end = g.
Proof. intros T p f g H. destruct p; try reflexivity. exfalso. now apply (H v). Qed.

Lemma is_val : forall p, {v | p = NValue v} + {forall v, p <> NValue v}.
Proof. destruct p; try (right; congruence). left; eauto. Qed.

Lemma simplify_f_ev : forall n e s, ev (simplify_f n e) s = ev e s.
Proof.
  induction n as [|n IH]; intros e s; [reflexivity|]. destruct e; cbn [simplify_f]; try reflexivity.
  - destruct (simp_loop NML_OPE_PARSE op e1 e2) as [[[k a'] b']|] eqn:E.
    + apply simp_loop_inv in E as [E _]. rewrite E, binop_ev. apply expr_cong; auto. apply simp_simple.
    + apply expr_cong; auto. apply simp_simple.
  - destruct (is_val e) as [[v ->]|N].
    + now rewrite (proj2 (simp_val n (NValue v) v) eq_refl).
    + assert (N' : forall v, simplify_f n e <> NValue v) by (intros v Hv; apply simp_val in Hv; now apply (N v)).
      transitivity (do (v, s) <- ev (simplify_f n e) s; do r <- u_read G ok false var v s; Some (field shift (u32 mask) r)).
      * cbn [eval]. apply not_val; assumption.
      * rewrite IH. symmetry. cbn [eval]. apply not_val; assumption.
  - destruct (is_val e) as [[v ->]|N].
    + now rewrite (proj2 (simp_val n (NValue v) v) eq_refl).
    + assert (N' : forall v, simplify_f n e <> NValue v) by (intros v Hv; apply simp_val in Hv; now apply (N v)).
      transitivity (do (v, s) <- ev (simplify_f n e) s; u_read G ok false 125 v s).
      * cbn [eval]. apply not_val; assumption.
      * rewrite IH. symmetry. cbn [eval]. apply not_val; assumption.
  - destruct (is_val e) as [[v ->]|N].
    + now rewrite (proj2 (simp_val n (NValue v) v) eq_refl).
    + assert (N' : forall v, simplify_f n e <> NValue v) by (intros v Hv; apply simp_val in Hv; now apply (N v)).
      transitivity (do (v, s) <- ev (simplify_f n e) s; u_read G ok false 124 v s).
      * cbn [eval]. apply not_val; assumption.
      * rewrite IH. symmetry. cbn [eval]. apply not_val; assumption.
Qed.
End Simp.

(** Enough fuel: more changes nothing. *)
Lemma simplify_fuel : forall n m e, (node_size e <= n)%nat -> (node_size e <= m)%nat ->
  simplify_f n e = simplify_f m e.
Proof.
  induction n as [|n IH]; intros m e Hn Hm; [destruct e; cbn in Hn; lia|].
  destruct m as [|m]; [destruct e; cbn in Hm; lia|].
  destruct e; cbn [simplify_f node_size] in *; try reflexivity; try (f_equal; apply IH; lia).
  destruct (simp_loop NML_OPE_PARSE op e1 e2) as [[[k a'] b']|] eqn:E.
  - apply simp_loop_inv in E as [_ [_ [_ [L _]]]]. f_equal; apply IH; lia.
  - f_equal; apply IH; lia.
Qed.

Lemma binop_plain : forall k x y, 0 <= k -> mk_binop k x y = NExpr k x y.
Proof.
  intros k x y H. unfold mk_binop, nml_ope, OPE_LT, OPE_GT, OPE_LE, OPE_GE, OPE_EQ, OPE_NEQ, OPE_HASBIT, OPE_NHASBIT.
  repeat match goal with |- context [if k =? ?n then _ else _] => let E := fresh in destruct (k =? n) eqn:E; [lia|] end.
  reflexivity.
Qed.

Lemma lower_plain : forall e, plain e = true -> lower e = e.
Proof.
  induction e; intro H; cbn [plain lower] in *; try reflexivity; try solve [f_equal; auto].
  rewrite !andb_true_iff in H. destruct H as [[H1 H2] H3]. rewrite IHe1, IHe2 by assumption. apply binop_plain. lia.
Qed.

Lemma lower_simplify_f : forall n e, plain e = true -> lower (simplify_f n e) = e.
Proof.
  induction n as [|n IH]; intros e H; [now apply lower_plain|].
  destruct e; cbn [simplify_f]; try (now apply lower_plain);
    try (cbn [lower plain] in *; f_equal; now apply IH).
  pose proof H as H0. cbn [plain] in H. rewrite !andb_true_iff in H. destruct H as [[H1 H2] H3].
  destruct (simp_loop NML_OPE_PARSE op e1 e2) as [[[k a'] b']|] eqn:E.
  - apply simp_loop_inv in E as [E [_ [_ [_ P]]]]. destruct (P H2) as [Pa Pb]. cbn [lower].
    rewrite !IH by assumption. now symmetry.
  - cbn [lower]. rewrite !IH by assumption. apply binop_plain. lia.
Qed.

(** Every comparison the parser lowers is found again. *)
Lemma simplify_binop : forall k x y, In k NML_OPE_keys ->
  simplify (mk_binop k x y) = NExpr k (simplify x) (simplify y).
Proof.
  intros k x y H. unfold simplify.
  assert (E : forall n, simplify_f (S n) (mk_binop k x y) = NExpr k (simplify_f n x) (simplify_f n y)).
  { intro n. cbn [NML_OPE_keys In] in H.
    repeat (destruct H as [<-|H]; [reflexivity|]). contradiction. }
  assert (L : exists n, node_size (mk_binop k x y) = S n /\ (node_size x <= n)%nat /\ (node_size y <= n)%nat).
  { unfold mk_binop. destruct (nml_ope k) as [[[[a b] bv] [[c cv]|]]|]; cbn [node_size]; eexists; repeat split; lia. }
  destruct L as [n [-> [Lx Ly]]]. rewrite E. f_equal; apply simplify_fuel; lia.
Qed.
