(** Printed and reread code means the same. *)
From Coq Require Import ZArith List Bool String Lia.
From Verif Require Import Base BaseFacts CommonModel RecordsModel Action14Model Action14Proofs
  VA2Model VA2Vars SpecVA2 VA2Simplify ParserModel SpecParser LexProofs ParserProofs RegroupProofs.
Import ListNotations.
Open Scope string_scope.
Open Scope list_scope.
Open Scope Z_scope.

Definition calm (tab : name -> option vdata) : Prop := forall x d, tab x = Some d -> vd_var d <> 126.

Section Meaning.
Context {A : Type} (G : game A) (ok : Z -> bool) (tab : name -> option vdata) (subs : list (name * sub_ref)).
Hypothesis HT : calm tab.
Notation ev := (eval G ok tab subs).

Lemma read_state : forall direct var p s v s', var <> 126 -> u_read G ok direct var p s = Some (v, s') -> s' = s.
Proof.
  intros direct var p s v s' N H. unfold u_read in H. destruct (Z.eqb_spec var 126); [contradiction|].
  repeat match type of H with (if ?c then _ else _) = _ => destruct c; try discriminate H end; injection H; intros; subst; reflexivity.
Qed.
Lemma field_state : forall o sh mk v s', (do r <- o; Some (field sh mk r)) = Some (v, s') -> exists v0 : Z, o = Some (v0, s' : ust A).
Proof. intros [[v0 s0]|] sh mk v s' H; [|discriminate]. cbn in H. injection H; intros; subst. eauto. Qed.
Lemma quiet_state : forall e s v s', quiet e = true -> ev e s = Some (v, s') -> s' = s.
Proof.
  induction e as [op a IHa b IHb|x e IH|n|x|x q IH|var sh mk adj|var sh mk adj q IH|r IH|r IH|n|x]; intros s v s' Q H; cbn [quiet] in Q; try discriminate.
  - apply andb_true_iff in Q as [Q Qb]. apply andb_true_iff in Q as [Q Qa]. apply andb_true_iff in Q as [Q1 Q2]. apply negb_true_iff in Q1, Q2.
    cbn [eval] in H. rewrite Q1, Q2 in H.
    destruct (is_simple b).
    + destruct (ev a s) as [[va s1]|] eqn:Ea; [|discriminate]. cbn [bind] in H. destruct (ev b s1) as [[vb s2]|] eqn:Eb; [|discriminate]. cbn [bind] in H.
      destruct (xarith op va vb); [|discriminate]. cbn in H. injection H; intros; subst. apply IHa in Ea; auto. apply IHb in Eb; auto. congruence.
    + destruct (ev b s) as [[va s1]|] eqn:Ea; [|discriminate]. cbn [bind] in H. destruct (ev a s1) as [[vb s2]|] eqn:Eb; [|discriminate]. cbn [bind] in H.
      destruct (xarith op vb va); [|discriminate]. cbn in H. injection H; intros; subst. apply IHb in Ea; auto. apply IHa in Eb; auto. congruence.
  - cbn in H. congruence.
  - cbn [eval] in H. destruct (tab x) as [d|] eqn:E.
    + apply field_state in H as [w0 H]. eapply read_state; [|exact H]. eauto.
    + destruct (dict_get bytes_eqb (u_vars s) x); [|discriminate]. cbn in H. congruence.
  - cbn [eval] in H. destruct (tab x) as [d|] eqn:E.
    + apply field_state in H as [w0 H]. eapply read_state; [|exact H]. eauto.
    + destruct (dict_get bytes_eqb (u_vars s) x); [|discriminate]. cbn in H. congruence.
  - cbn [eval] in H. apply field_state in H as [w0 H]. eapply read_state; [|exact H]. lia.
  - apply andb_true_iff in Q as [Qv Q]. assert (N : var <> 126) by lia.
    destruct (is_val q) as [[p ->]|Nv].
    + cbn [eval] in H. apply field_state in H as [w0 H]. exact (read_state _ _ _ _ _ _ N H).
    + assert (E : ev (NGenP var sh mk adj q) s = do (v, s) <- ev q s; do r <- u_read G ok false var v s; Some (field sh (u32 mk) r)) by (cbn [eval]; apply not_val, Nv).
      rewrite E in H. destruct (ev q s) as [[v1 s1]|] eqn:Eq; [|discriminate]. cbn [bind] in H. apply field_state in H as [w0 H].
      apply IH in Eq; [|exact Q]. apply read_state in H; [congruence|exact N].
  - destruct (is_val r) as [[p ->]|Nv].
    + cbn [eval] in H. eapply read_state; [|exact H]. lia.
    + assert (E : ev (NTemp r) s = do (v, s) <- ev r s; u_read G ok false 125 v s) by (cbn [eval]; apply not_val, Nv).
      rewrite E in H. destruct (ev r s) as [[v1 s1]|] eqn:Eq; [|discriminate]. cbn [bind] in H. apply IH in Eq; [|exact Q]. apply read_state in H; [congruence|lia].
  - destruct (is_val r) as [[p ->]|Nv].
    + cbn [eval] in H. eapply read_state; [|exact H]. lia.
    + assert (E : ev (NPerm r) s = do (v, s) <- ev r s; u_read G ok false 124 v s) by (cbn [eval]; apply not_val, Nv).
      rewrite E in H. destruct (ev r s) as [[v1 s1]|] eqn:Eq; [|discriminate]. cbn [bind] in H. apply IH in Eq; [|exact Q]. apply read_state in H; [congruence|lia].
Qed.

Definition value (e : node) (s : ust A) : option Z := do (v, _) <- ev e s; Some v.
Lemma quiet_ev : forall e s, quiet e = true -> ev e s = do v <- value e s; Some (v, s).
Proof.
  intros e s Q. unfold value. destruct (ev e s) as [[v s']|] eqn:E; [|reflexivity]. cbn [bind]. rewrite (quiet_state e s v s' Q E). reflexivity.
Qed.
Lemma value_expr : forall op a b s, (op =? 14) = false -> (op =? 16) = false -> quiet a = true -> quiet b = true ->
  value (NExpr op a b) s = do va <- value a s; do vb <- value b s; xarith op va vb.
Proof.
  intros op a b s N1 N2 Qa Qb. unfold value at 1. cbn [eval]. rewrite N1, N2.
  rewrite (quiet_ev a s Qa), (quiet_ev b s Qb).
  destruct (value a s) as [va|] eqn:Ea, (value b s) as [vb|] eqn:Eb; cbn [bind]; destruct (is_simple b); cbn [bind];
    rewrite ?(quiet_ev a s Qa), ?(quiet_ev b s Qb), ?Ea, ?Eb; cbn [bind]; try reflexivity; destruct (xarith op va vb); reflexivity.
Qed.

Lemma graft_quiet : forall op a b, quiet (NExpr op a b) = true -> quiet (graft op a b) = true.
Proof.
  intros op a. induction b as [op' b1 IH1 b2 _| | | | | | | | | |]; intros Q; try exact Q.
  cbn [graft]. destruct (moves op op'); [|exact Q]. cbn [quiet] in *.
  apply andb_true_iff in Q as [Q Qb]. apply andb_true_iff in Qb as [Qb Q2]. apply andb_true_iff in Qb as [Qb Q1].
  rewrite Qb, Q2, IH1; [reflexivity|]. rewrite Q, Q1. reflexivity.
Qed.
Lemma regroup_quiet : forall e, quiet e = true -> quiet (regroup e) = true.
Proof.
  induction e as [op a IHa b IHb|x e IH|n|x|x q IH|var sh mk adj|var sh mk adj q IH|r IH|r IH|n|x]; intros Q; cbn [regroup]; try exact Q; try exact (IH Q).
  - apply graft_quiet. cbn [quiet] in *. apply andb_true_iff in Q as [Q Qb]. apply andb_true_iff in Q as [Q Qa]. rewrite Q, (IHa Qa), (IHb Qb). reflexivity.
  - cbn [quiet] in *. apply andb_true_iff in Q as [Q Qa]. rewrite Q, (IH Qa). reflexivity.
Qed.

Lemma sum_moves : forall op', moves 0 op' = true -> op' = 0 \/ op' = 1.
Proof.
  intros op' M. unfold moves in M. apply andb_true_iff in M as [_ M]. change (line_of 0) with (Some 5) in M.
  destruct (line_of op') as [l|] eqn:E; [|discriminate]. pose proof (line_movers _ _ E) as I. apply Z.eqb_eq in M. subst l.
  cbn in I. repeat (destruct I as [<-|I]; [try discriminate E; tauto|]). contradiction.
Qed.
Lemma shuffle_sum : forall op' x y z, op' = 0 \/ op' = 1 ->
  (do r <- xarith op' y z; xarith 0 x r) = (do r <- xarith 0 x y; xarith op' r z).
Proof.
  intros op' x y z [-> | ->]; cbn [xarith arith bind]; f_equal; unfold u32.
  - rewrite Zplus_mod_idemp_r, Zplus_mod_idemp_l. f_equal. lia.
  - rewrite Zplus_mod_idemp_r, Zminus_mod_idemp_l. f_equal. lia.
Qed.
Lemma shuffle_mul : forall x y z, (do r <- xarith 10 y z; xarith 10 x r) = (do r <- xarith 10 x y; xarith 10 r z).
Proof. intros x y z. cbn [xarith arith bind]. f_equal. unfold u32. rewrite Zmult_mod_idemp_r, Zmult_mod_idemp_l. f_equal. lia. Qed.

Lemma graft_value : forall op a b s, quiet a = true -> quiet b = true -> (op =? 14) = false -> (op =? 16) = false -> chain op b = true ->
  value (graft op a b) s = value (NExpr op a b) s.
Proof.
  intros op a. induction b as [op' b1 IH1 b2 _| | | | | | | | | |]; intros s Qa Qb N1 N2 C; try reflexivity.
  cbn [graft]. destruct (moves op op') eqn:M; [|reflexivity]. cbn [chain] in C. rewrite M in C. apply andb_true_iff in C as [C0 C1].
  pose proof Qb as Qb0. cbn [quiet] in Qb. apply andb_true_iff in Qb as [Qb Q2]. apply andb_true_iff in Qb as [Qb Q1].
  apply andb_true_iff in Qb as [K1 K2]. apply negb_true_iff in K1, K2.
  rewrite value_expr; auto.
  2: { apply graft_quiet. cbn [quiet]. rewrite N1, N2, Qa, Q1. reflexivity. }
  rewrite (IH1 s Qa Q1 N1 N2 C1), !value_expr by auto.
  destruct (value a s) as [x|]; [|reflexivity]. cbn [bind]. destruct (value b1 s) as [y|]; [|reflexivity]. cbn [bind].
  destruct (value b2 s) as [z|]; cbn [bind]; [|destruct (xarith op x y); reflexivity].
  apply orb_true_iff in C0 as [C0|C0].
  - apply Z.eqb_eq in C0. subst op. symmetry. apply shuffle_sum. apply sum_moves, M.
  - apply andb_true_iff in C0 as [E E']. apply Z.eqb_eq in E, E'. subst op op'. symmetry. apply shuffle_mul.
Qed.
Lemma graft_ev : forall op a b s, quiet a = true -> quiet b = true -> (op =? 14) = false -> (op =? 16) = false -> chain op b = true ->
  ev (graft op a b) s = ev (NExpr op a b) s.
Proof.
  intros op a b s Qa Qb N1 N2 C.
  assert (Q : quiet (NExpr op a b) = true) by (cbn [quiet]; rewrite N1, N2, Qa, Qb; reflexivity).
  rewrite (quiet_ev _ s (graft_quiet op a b Q)), (quiet_ev _ s Q), graft_value by assumption. reflexivity.
Qed.

Lemma regroup_simple : forall e, is_simple (regroup e) = is_simple e.
Proof.
  intros [op a b|x e|n|x|x q|var sh mk adj|var sh mk adj q|r|r|n|x]; cbn [regroup]; try reflexivity.
  - destruct (regroup b); cbn [graft]; try reflexivity. destruct (moves op op0); reflexivity.
  - cbn [is_simple]. destruct (is_val q) as [[v ->]|N]; [reflexivity|].
    rewrite !not_val; auto. intros v E. apply regroup_val in E. exact (N v E).
  - cbn [is_simple]. destruct (is_val r) as [[v ->]|N]; [reflexivity|].
    rewrite !not_val; auto. intros v E. apply regroup_val in E. exact (N v E).
  - cbn [is_simple]. destruct (is_val r) as [[v ->]|N]; [reflexivity|].
    rewrite !not_val; auto. intros v E. apply regroup_val in E. exact (N v E).
Qed.
(** Congruence for one-place nodes. *)
Lemma genp_cong : forall var sh mk adj p p' s, (forall s, ev p' s = ev p s) -> (forall v, p = NValue v -> p' = p) -> (forall v, p' = NValue v -> p' = p) ->
  ev (NGenP var sh mk adj p') s = ev (NGenP var sh mk adj p) s.
Proof.
  intros var sh mk adj p p' s H H1 H2. destruct (is_val p) as [[v E]|N]; [rewrite (H1 v E); reflexivity|].
  assert (N' : forall v, p' <> NValue v) by (intros v E; pose proof (H2 v E) as Q; apply (N v); congruence).
  cbn [eval]. transitivity (do (v, s) <- ev p' s; do r <- u_read G ok false var v s; Some (field sh (u32 mk) r)); [apply not_val, N'|].
  rewrite H. symmetry. apply not_val, N.
Qed.
Lemma temp_cong : forall p p' s, (forall s, ev p' s = ev p s) -> (forall v, p = NValue v -> p' = p) -> (forall v, p' = NValue v -> p' = p) ->
  ev (NTemp p') s = ev (NTemp p) s.
Proof.
  intros p p' s H H1 H2. destruct (is_val p) as [[v E]|N]; [rewrite (H1 v E); reflexivity|].
  assert (N' : forall v, p' <> NValue v) by (intros v E; pose proof (H2 v E) as Q; apply (N v); congruence).
  cbn [eval]. transitivity (do (v, s) <- ev p' s; u_read G ok false 125 v s); [apply not_val, N'|].
  rewrite H. symmetry. apply not_val, N.
Qed.
Lemma perm_cong : forall p p' s, (forall s, ev p' s = ev p s) -> (forall v, p = NValue v -> p' = p) -> (forall v, p' = NValue v -> p' = p) ->
  ev (NPerm p') s = ev (NPerm p) s.
Proof.
  intros p p' s H H1 H2. destruct (is_val p) as [[v E]|N]; [rewrite (H1 v E); reflexivity|].
  assert (N' : forall v, p' <> NValue v) by (intros v E; pose proof (H2 v E) as Q; apply (N v); congruence).
  cbn [eval]. transitivity (do (v, s) <- ev p' s; u_read G ok false 124 v s); [apply not_val, N'|].
  rewrite H. symmetry. apply not_val, N.
Qed.

(** The line of the outermost operator survives. *)
Definition head_line (e : node) : option Z := match e with NExpr op _ _ => line_of op | _ => None end.
Lemma moves_line : forall op op', moves op op' = true -> line_of op' = line_of op.
Proof.
  intros op op' M. unfold moves in M. apply andb_true_iff in M as [_ M]. destruct (line_of op); [|discriminate]. destruct (line_of op'); [|discriminate].
  apply Z.eqb_eq in M. subst. reflexivity.
Qed.
Lemma regroup_line : forall e, head_line (regroup e) = head_line e.
Proof.
  intros [op a b| | | | | | | | | |]; cbn [regroup]; try reflexivity. destruct (regroup b); cbn [graft]; try reflexivity.
  destruct (moves op op0) eqn:M; [|reflexivity]. cbn [head_line]. exact (moves_line _ _ M).
Qed.
Definition hmoves (op : Z) (b : node) : bool :=
  negb (op =? 1) && match line_of op, head_line b with Some l, Some l' => l =? l' | _, _ => false end.
Lemma hmoves_spec : forall op b, hmoves op b = match b with NExpr op' _ _ => moves op op' | _ => false end.
Proof. intros op b. unfold hmoves, moves. destruct b; cbn [head_line]; destruct (line_of op); rewrite ?andb_false_r; reflexivity. Qed.
Lemma graft_stays : forall op a b, hmoves op b = false -> graft op a b = NExpr op a b.
Proof. intros op a b H. rewrite hmoves_spec in H. destruct b; try reflexivity. cbn [graft]. rewrite H. reflexivity. Qed.

Theorem regroup_ev : forall e s, harmless e = true -> ev (regroup e) s = ev e s.
Proof.
  induction e as [op a IHa b IHb|x e IH|n|x|x q IH|var sh mk adj|var sh mk adj q IH|r IH|r IH|n|x]; intros s H; cbn [harmless] in H; cbn [regroup]; try reflexivity.
  - apply andb_true_iff in H as [H K]. apply andb_true_iff in H as [Ha Hb].
    transitivity (ev (NExpr op (regroup a) (regroup b)) s); [|apply expr_cong; auto using regroup_simple].
    destruct (hmoves op b) eqn:M.
    + rewrite hmoves_spec in M. destruct b as [op' b1 b2| | | | | | | | | |]; try discriminate. rewrite M in K.
      apply andb_true_iff in K as [K C]. apply andb_true_iff in K as [Qa Qb].
      destruct (moves_facts op op' M) as (_ & _ & _ & _ & _ & _ & _ & _ & N & _). apply orb_false_iff in N as [N1 N2].
      apply graft_ev; auto using regroup_quiet.
    + rewrite graft_stays; [reflexivity|]. unfold hmoves in *. rewrite regroup_line. exact M.
  - cbn [eval]. rewrite IH by exact H. reflexivity.
  - apply andb_true_iff in H as [_ H]. apply genp_cong; intros; auto.
    + subst q. reflexivity.
    + pose proof (regroup_val _ _ H0); congruence.
  - apply andb_true_iff in H as [_ H]. apply temp_cong; intros; auto.
    + subst r. reflexivity.
    + pose proof (regroup_val _ _ H0); congruence.
  - apply andb_true_iff in H as [_ H]. apply perm_cong; intros; auto.
    + subst r. reflexivity.
    + pose proof (regroup_val _ _ H0); congruence.
Qed.

(** Constants as signed numbers. *)
Fixpoint consts (e : node) : bool :=
  match e with
  | NExpr _ a b => consts a && consts b
  | NGenP _ _ _ _ e | NTemp e | NPerm e => small_const e && consts e
  | NAssign _ e => consts e
  | _ => true
  end.
Lemma harmless_consts : forall e, harmless e = true -> consts e = true.
Proof.
  induction e as [op a IHa b IHb|x e IH|n|x|x q IH|var sh mk adj|var sh mk adj q IH|r IH|r IH|n|x]; intros H; cbn [harmless consts] in *;
    try reflexivity; try exact (IH H); try (apply andb_true_iff in H as [H1 H]; rewrite H1, (IH H); reflexivity).
  apply andb_true_iff in H as [H _]. apply andb_true_iff in H as [Ha Hb]. rewrite (IHa Ha), (IHb Hb). reflexivity.
Qed.
Lemma small_regroup : forall e, small_const e = true -> small_const (regroup e) = true.
Proof.
  intros e H. destruct (is_val (regroup e)) as [[v E]|N].
  - apply regroup_val in E. subst e. exact H.
  - unfold small_const. destruct (regroup e); try reflexivity. exfalso. exact (N v eq_refl).
Qed.
Lemma graft_consts : forall op a b, consts a = true -> consts b = true -> consts (graft op a b) = true.
Proof.
  intros op a. induction b as [op' b1 IH1 b2 _| | | | | | | | | |]; intros Ha Hb; cbn [graft]; try (cbn [consts] in *; rewrite Ha, Hb; reflexivity);
    try (cbn [consts] in *; rewrite Ha; reflexivity).
  destruct (moves op op'); [|cbn [consts] in *; rewrite Ha, Hb; reflexivity].
  cbn [consts] in *. apply andb_true_iff in Hb as [H1 H2]. rewrite (IH1 Ha H1), H2. reflexivity.
Qed.
Lemma regroup_consts : forall e, consts e = true -> consts (regroup e) = true.
Proof.
  induction e as [op a IHa b IHb|x e IH|n|x|x q IH|var sh mk adj|var sh mk adj q IH|r IH|r IH|n|x]; intros H; cbn [regroup consts] in *;
    try reflexivity; try exact (IH H); try (apply andb_true_iff in H as [H1 H]; rewrite (small_regroup _ H1), (IH H); reflexivity).
  apply andb_true_iff in H as [Ha Hb]. apply graft_consts; auto.
Qed.
Lemma u32_s32 : forall v, u32 (s32 v) = u32 v.
Proof.
  intros v. unfold s32. cbv zeta. pose proof (Z.mod_pos_bound v (2 ^ 32) ltac:(lia)) as B. fold (u32 v) in B.
  destruct (Z.ltb_spec (u32 v) (2 ^ 31)); unfold u32 in *.
  - apply Z.mod_small. lia.
  - replace (v mod 2 ^ 32 - 2 ^ 32) with (v mod 2 ^ 32 + (-1) * 2 ^ 32) by lia. rewrite Z.mod_add by lia. apply Z.mod_small. lia.
Qed.
Lemma signed_val : forall e v, signed e = NValue v -> exists w, e = NValue w.
Proof. intros [op a b| |w| | | | | | | |] v H; cbn [signed] in H; try discriminate. eauto. Qed.
Lemma signed_small : forall e v, small_const e = true -> e = NValue v -> signed e = e.
Proof. intros e v H ->. cbn [small_const signed] in *. rewrite (s32_reg v H). reflexivity. Qed.
Lemma signed_small' : forall e v, small_const e = true -> signed e = NValue v -> signed e = e.
Proof. intros e v H E. destruct (signed_val e v E) as [w ->]. exact (signed_small _ w H eq_refl). Qed.
Lemma signed_simple : forall e, consts e = true -> is_simple (signed e) = is_simple e.
Proof.
  intros [op a b|x e|n|x|x q|var sh mk adj|var sh mk adj q|r|r|n|x] H; cbn [signed consts] in *; try reflexivity;
    apply andb_true_iff in H as [H1 H]; cbn [is_simple].
  - destruct (is_val q) as [[v ->]|N]; [rewrite (signed_small _ v H1 eq_refl); reflexivity|].
    rewrite !not_val; auto. intros v E. destruct (signed_val q v E) as [w E']. exact (N w E').
  - destruct (is_val r) as [[v ->]|N]; [rewrite (signed_small _ v H1 eq_refl); reflexivity|].
    rewrite !not_val; auto. intros v E. destruct (signed_val r v E) as [w E']. exact (N w E').
  - destruct (is_val r) as [[v ->]|N]; [rewrite (signed_small _ v H1 eq_refl); reflexivity|].
    rewrite !not_val; auto. intros v E. destruct (signed_val r v E) as [w E']. exact (N w E').
Qed.
Lemma signed_ev : forall e s, consts e = true -> ev (signed e) s = ev e s.
Proof.
  induction e as [op a IHa b IHb|x e IH|n|x|x q IH|var sh mk adj|var sh mk adj q IH|r IH|r IH|n|x]; intros s H; cbn [signed consts] in *; try reflexivity.
  - apply andb_true_iff in H as [Ha Hb]. apply expr_cong; auto using signed_simple.
  - cbn [eval]. rewrite IH by exact H. reflexivity.
  - cbn [eval]. rewrite u32_s32. reflexivity.
  - apply andb_true_iff in H as [H1 H]. apply genp_cong; intros; eauto using signed_small, signed_small'.
  - apply andb_true_iff in H as [H1 H]. apply temp_cong; intros; eauto using signed_small, signed_small'.
  - apply andb_true_iff in H as [H1 H]. apply perm_cong; intros; eauto using signed_small, signed_small'.
Qed.
Lemma lower_val : forall e v, lower e = NValue v -> e = NValue v.
Proof.
  intros [op a b| |w| | | | | | | |] v H; cbn [lower] in H; try discriminate; try exact H.
  exfalso. unfold mk_binop in H. destruct (nml_ope op) as [[[[? ?] ?] [[? ?]|]]|]; discriminate.
Qed.
Lemma lower_simple : forall e, is_simple (lower e) = is_simple e.
Proof.
  intros [op a b|x e|n|x|x q|var sh mk adj|var sh mk adj q|r|r|n|x]; cbn [lower]; try reflexivity.
  - unfold mk_binop. destruct (nml_ope op) as [[[[? ?] ?] [[? ?]|]]|]; reflexivity.
  - cbn [is_simple]. destruct (is_val q) as [[v ->]|N]; [reflexivity|].
    rewrite !not_val; auto. intros v E. apply lower_val in E. exact (N v E).
  - cbn [is_simple]. destruct (is_val r) as [[v ->]|N]; [reflexivity|].
    rewrite !not_val; auto. intros v E. apply lower_val in E. exact (N v E).
  - cbn [is_simple]. destruct (is_val r) as [[v ->]|N]; [reflexivity|].
    rewrite !not_val; auto. intros v E. apply lower_val in E. exact (N v E).
Qed.
Lemma lower_ev : forall e s, ev (lower e) s = ev e s.
Proof.
  induction e as [op a IHa b IHb|x e IH|n|x|x q IH|var sh mk adj|var sh mk adj q IH|r IH|r IH|n|x]; intros s; cbn [lower]; try reflexivity.
  - rewrite binop_ev. apply expr_cong; auto using lower_simple.
  - cbn [eval]. rewrite IH. reflexivity.
  - apply genp_cong; intros; auto; [subst q; reflexivity|pose proof (lower_val _ _ H); congruence].
  - apply temp_cong; intros; auto; [subst r; reflexivity|pose proof (lower_val _ _ H); congruence].
  - apply perm_cong; intros; auto; [subst r; reflexivity|pose proof (lower_val _ _ H); congruence].
Qed.
Theorem reread_ev : forall e s, harmless e = true -> ev (lower (signed (regroup e))) s = ev e s.
Proof. intros e s H. rewrite lower_ev, signed_ev by auto using regroup_consts, harmless_consts. apply regroup_ev, H. Qed.
Theorem reread_lines : forall l v s, forallb harmless l = true ->
  eval_lines G ok tab subs (map (fun e => lower (signed (regroup e))) l) v s = eval_lines G ok tab subs l v s.
Proof.
  induction l as [|e l IH]; intros v s H; [reflexivity|]. cbn [forallb map eval_lines] in *. apply andb_true_iff in H as [H1 H2].
  rewrite reread_ev by exact H1. destruct (ev e s) as [[v1 s1]|]; [|reflexivity]. cbn [bind]. apply IH, H2.
Qed.
End Meaning.
