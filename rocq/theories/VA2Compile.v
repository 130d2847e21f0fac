(** The compiled code computes the expression. *)
From Coq Require Import ZArith List Bool Lia ZifyBool.
From Verif Require Import Base BaseFacts CommonModel CommonProofs RecordsModel RecordsProofs Action14Model
  Action14Proofs VA2Model SpecVA2 VA2Proofs.
Import ListNotations.
Open Scope Z_scope.

(** Instructions as the compiler writes them. *)
Definition le4 (v : Z) : bytes := [v mod 256; (v / 256) mod 256; (v / 65536) mod 256; v / 16777216].
Definition enc_j (j : adjust) : bytes :=
  j_var j :: (if has_param (j_var j) then [j_param j] else []) ++ (32 + j_shift j) :: le4 (j_mask j).
Definition enc_tail (l : list adjust) : bytes := concat (map (fun j => j_op j :: enc_j j) l).
Definition enc_seq (j : adjust) (l : list adjust) : bytes := enc_j j ++ enc_tail l.
Definition set_op (j : adjust) (op : Z) : adjust :=
  mkAdj op (j_var j) (j_param j) (j_shift j) (j_type j) (j_mask j) (j_add j) (j_div j).

Record wf_j (j : adjust) : Prop := {
  w_op : 0 <= j_op j < 256;
  w_var : 0 <= j_var j < 256;
  w_param : 0 <= j_param j < 256;
  w_param0 : has_param (j_var j) = false -> j_param j = 0;
  w_shift : 0 <= j_shift j < 32;
  w_type : j_type j = 0;
  w_mask : rng (j_mask j);
  w_add : j_add j = 0;
  w_div : j_div j = 0 }.

Lemma wf_set_op : forall j op, wf_j j -> 0 <= op < 256 -> wf_j (set_op j op).
Proof. intros j op [] H. constructor; cbn; auto. Qed.
Lemma enc_set_op : forall j op, enc_j (set_op j op) = enc_j j.
Proof. reflexivity. Qed.
Lemma set_op_op : forall j op, j_op (set_op j op) = op.
Proof. reflexivity. Qed.

Lemma enc_tail_app : forall a b, enc_tail (a ++ b) = enc_tail a ++ enc_tail b.
Proof. intros. unfold enc_tail. now rewrite map_app, concat_app. Qed.
Lemma enc_seq_app : forall j1 l1 op j2 l2,
  enc_seq j1 l1 ++ op :: enc_seq j2 l2 = enc_seq j1 (l1 ++ set_op j2 op :: l2).
Proof.
  intros. unfold enc_seq. rewrite enc_tail_app. rewrite <- !app_assoc. reflexivity.
Qed.

Lemma lor32 : forall s, s < 32 -> 0 <= Z.lor 32 s -> 0 <= s /\ Z.lor 32 s = 32 + s.
Proof.
  intros s H H0. apply Z.lor_nonneg in H0 as [_ H0]. split; [assumption|].
  rewrite Z.lor_comm. change 32 with (Z.shiftl 1 5) at 1. rewrite lor_shift by (try change (2^5) with 32; lia).
  change (2 ^ 5) with 32. lia.
Qed.

Lemma pk_varp_inv : forall var p shift mask b, pk_varp var p shift mask = Some b -> shift < 32 ->
  0 <= var < 256 /\ 0 <= p < 256 /\ 0 <= shift /\ rng mask /\ b = var :: p :: (32 + shift) :: le4 mask.
Proof.
  intros var p shift mask b H Hs. unfold pk_varp in H. cbn [concat_opt] in H. inv_opt. inv_pack.
  destruct (lor32 shift Hs) as [Hs0 Es]; [lia|]. rewrite Es. unfold rng. change (2 ^ 32) with 4294967296.
  cbn [app]. repeat split; try lia; try assumption.
Qed.
Lemma pk_var_inv : forall var shift mask b, pk_var var shift mask = Some b -> shift < 32 ->
  0 <= var < 256 /\ 0 <= shift /\ rng mask /\ b = var :: (32 + shift) :: le4 mask.
Proof.
  intros var shift mask b H Hs. unfold pk_var in H. cbn [concat_opt] in H. inv_opt. inv_pack.
  destruct (lor32 shift Hs) as [Hs0 Es]; [lia|]. rewrite Es. unfold rng. change (2 ^ 32) with 4294967296.
  cbn [app]. repeat split; try lia; try assumption.
Qed.

Definition J (var param shift mask : Z) : adjust := mkAdj 15 var param shift 0 mask 0 0.

Lemma wf_J : forall var param shift mask, 0 <= var < 256 -> 0 <= param < 256 ->
  (has_param var = false -> param = 0) -> 0 <= shift < 32 -> rng mask -> wf_j (J var param shift mask).
Proof. intros. constructor; cbn; auto; lia. Qed.
Lemma enc_J_p : forall var p shift mask, has_param var = true ->
  enc_seq (J var p shift mask) [] = var :: p :: (32 + shift) :: le4 mask.
Proof. intros. unfold enc_seq, enc_j, enc_tail. cbn [J j_var j_param j_shift j_mask map concat]. rewrite H. now rewrite app_nil_r. Qed.
Lemma enc_J : forall var shift mask, has_param var = false ->
  enc_seq (J var 0 shift mask) [] = var :: (32 + shift) :: le4 mask.
Proof. intros. unfold enc_seq, enc_j, enc_tail. cbn [J j_var j_param j_shift j_mask map concat]. rewrite H. now rewrite app_nil_r. Qed.

Section Correct.
Variable A : Type.
Variable G : game A.
Hypothesis CALLS : calls_clean G.
Variable tab : name -> option vdata.

Lemma exec_all_app : forall l1 l2 s, exec_all G (l1 ++ l2) s = exec_all G l2 (exec_all G l1 s).
Proof. induction l1; intros; cbn [app exec_all]; auto. Qed.

(** Machine state [m] stands for user state [s] under context [c]. *)
Record rel (c : ctx) (s : ust A) (m : mst A) : Prop := {
  rl_tmp : forall r, user_reg r = true -> tmp m r = u_tmp s r;
  rl_prm : forall r, prm m r = u_prm s r;
  rl_aux : aux m = u_aux s;
  rl_vars : forall x r v, vget c x = Some r -> dict_get bytes_eqb (u_vars s) x = Some v -> tmp m r = v /\ rng v }.

(** Compiler temporaries live across [e] keep their value. *)
Definition pres (c : ctx) (m m' : mst A) : Prop :=
  forall r, In r (c_used c) -> (forall x, vget c x <> Some r) -> tmp m' r = tmp m r.

Lemma pres_refl : forall c m, pres c m m.
Proof. intros c m r; auto. Qed.
Lemma pres_trans : forall c c' m m' m'', ext c c' -> pres c m m' -> pres c' m' m'' -> pres c m m''.
Proof.
  intros c c' m m' m'' X P1 P2 r Hr Hx. rewrite P2, P1; auto.
  - now apply (e_used _ _ X).
  - intros x Hx'. destruct (vget c x) as [r'|] eqn:E.
    + pose proof (e_vars _ _ X _ _ E). congruence.
    + now apply (e_new _ _ X _ _ E Hx').
Qed.

Lemma reg_not_user : forall c r, inv c -> In r (c_used c) -> user_reg r = false.
Proof. intros c r I H. apply (i_range _ I) in H. unfold user_reg. lia. Qed.

Ltac six := split; [auto|split; [auto|split; [lia|split; [assumption|split; [apply pres_refl|]]]]].

(** Reading through [read_direct] follows [u_read]. *)
Lemma read_ok : forall c s m direct var p v s', inv c -> rel c s m ->
  u_read G user_reg direct var p s = Some (v, s') ->
  exists m', (direct = true -> read_direct G var p m = (v, m')) /\
    (direct = false -> read_indirect G var p m = (v, m')) /\ var <> 123 /\
    rel c s' m' /\ pres c m m' /\ rng v.
Proof.
  intros c s m direct var p v s' I R H. unfold u_read in H. unfold read_indirect, read_direct.
  destruct (var =? 26) eqn:E26.
  { inv_opt. exists m. assert (var =? 126 = false) as -> by lia. six; unfold rng; lia. }
  destruct (var =? 125) eqn:E125.
  { inv_opt. exists m. assert (var =? 126 = false) as -> by lia.
    rewrite (rl_tmp _ _ _ R) by assumption. six; apply u32_rng. }
  destruct (var =? 124) eqn:E124.
  { inv_opt. exists m. assert (var =? 126 = false) as -> by lia.
    rewrite (rl_prm _ _ _ R). six; apply u32_rng. }
  destruct (var =? 126) eqn:E126.
  { destruct direct; [|discriminate].
    destruct (CALLS p m (mkM (u_tmp s) (u_prm s) (u_aux s))) as [Hv [Ha Hc]].
    { split; [|split]; cbn; apply R. }
    destruct (callproc G p (mkM (u_tmp s) (u_prm s) (u_aux s))) as [w mm] eqn:Ec.
    destruct (callproc G p m) as [w' m'] eqn:Ec'. cbn [fst snd] in *. inv_opt.
    exists m'. split; [reflexivity|]. split; [discriminate|]. split; [lia|].
    split; [|split; [|apply u32_rng]].
    - destruct Ha as [H1 [H2 H3]]. constructor; cbn; auto.
      intros x r w0 Hx Hw. rewrite Hc; [now apply (rl_vars _ _ _ R x)|].
      apply (reg_not_user c); [assumption|]. now apply (i_vars _ I x).
    - intros r Hr _. apply Hc. now apply (reg_not_user c). }
  destruct (var =? 123) eqn:E123; [discriminate|]. inv_opt. exists m.
  rewrite (rl_aux _ _ _ R). six; apply u32_rng.
Qed.

Lemma land_mask_id : forall v, rng v -> Z.land v 4294967295 = v.
Proof. intros v H. change 4294967295 with (Z.ones 32). rewrite Z.land_ones by lia. now apply Z.mod_small. Qed.

Lemma load_direct : forall var p shift mask m v m' last, var <> 123 ->
  read_direct G var p m = (v, m') ->
  load G (J var p shift mask) last m = (Z.land (Z.shiftr v shift) mask, m').
Proof.
  intros var p shift mask m v m' last Hv H. unfold load. cbn [J j_var j_param j_shift j_mask j_type].
  destruct (var =? 123) eqn:E; [lia|]. rewrite H. reflexivity.
Qed.
Lemma load_indirect : forall var shift mask m v m' last,
  read_indirect G var last m = (v, m') ->
  load G (J 123 var shift mask) last m = (Z.land (Z.shiftr v shift) mask, m').
Proof.
  intros var shift mask m v m' last H. unfold load. cbn [J j_var j_param j_shift j_mask j_type].
  change (123 =? 123) with true. cbv iota. rewrite H. reflexivity.
Qed.
Lemma load_set_op : forall j op last m, load G (set_op j op) last m = load G j last m.
Proof. reflexivity. Qed.
Lemma load_const : forall v m last op, rng v ->
  load G (set_op (J 26 0 0 v) op) last m = (v, m).
Proof.
  intros v m last op Hv. rewrite load_set_op. rewrite (load_direct 26 0 0 v m (2 ^ 32 - 1) m); [|lia|reflexivity].
  rewrite Z.shiftr_0_r, Z.land_comm. change (2 ^ 32 - 1) with 4294967295. now rewrite land_mask_id.
Qed.
Lemma exec_init : forall j last m v m', load G j last m = (v, m') ->
  exec G (set_op j 15) (last, m) = (v, m').
Proof. intros. unfold exec. cbn [fst snd]. rewrite load_set_op, H. reflexivity. Qed.

Lemma mask_rng : forall a m, rng m -> rng (Z.land a m).
Proof. intros a m H. unfold rng in *. pose proof (land_rng a m). lia. Qed.

(** The conclusion for one expression. *)
Definition simple_good (e : node) (c : ctx) (j : adjust) : Prop :=
  forall c2 s v s' m last, inv c2 -> ext c c2 -> rel c2 s m -> eval G user_reg tab (c_subs c) e s = Some (v, s') ->
     exists m', load G j last m = (v, m') /\ rel c2 s' m' /\ pres c2 m m' /\ rng v.
Definition good (e : node) (c c' : ctx) (isv : bool) (code : bytes) : Prop :=
  inv c' /\ ext c c' /\
  exists j l, code = enc_seq j l /\ wf_j j /\ Forall wf_j l /\
  (isv = is_simple e \/ computed_param e = true) /\
  (is_simple e = true -> l = [] /\ c' = c /\ simple_good e c j) /\
  (forall s v s' m last, rel c s m -> eval G user_reg tab (c_subs c) e s = Some (v, s') ->
     exists m', exec_all G (set_op j 15 :: l) (last, m) = (v, m') /\ rel c' s' m' /\ pres c m m' /\ rng v).

(** For operands read in place only the load has to be shown. *)
Lemma good_simple : forall e c code j, inv c -> is_simple e = true ->
  code = enc_seq j [] -> wf_j j ->
  simple_good e c j -> good e c c true code.
Proof.
  intros e c code j I S E W H. split; [assumption|]. split; [apply ext_refl|].
  exists j, []. split; [assumption|]. split; [assumption|]. split; [constructor|].
  split; [now left|]. split; [intros _; auto|].
  intros s v s' m last R Ev. destruct (H c s v s' m last I (ext_refl c) R Ev) as [m' [L [R' [P Rg]]]].
  exists m'. cbn [exec_all]. rewrite (exec_init _ _ _ _ _ L). auto.
Qed.

Lemma u32_land : forall x, Z.land 4294967295 (Z.shiftr x 0) = u32 x.
Proof.
  intro x. rewrite Z.shiftr_0_r, Z.land_comm. change 4294967295 with (Z.ones 32). now rewrite Z.land_ones by lia.
Qed.

(** [arith] succeeds for operators other than the stores. *)
Lemma apply_arith : forall op a b r (m : mst A), arith op a b = Some r -> op <> 14 -> op <> 16 ->
  apply_op op a b m = (r, m).
Proof.
  intros op a b r m H H1 H2. unfold apply_op. destruct (op =? 14) eqn:E; [lia|].
  destruct (op =? 16) eqn:E'; [lia|]. now rewrite H.
Qed.

Lemma rel_set_user : forall c s m r v, inv c -> rel c s m -> user_reg r = true ->
  rel c (mkU (fset (u_tmp s) r v) (u_prm s) (u_vars s) (u_aux s)) (mkM (fset (tmp m) r v) (prm m) (aux m))
  /\ pres c m (mkM (fset (tmp m) r v) (prm m) (aux m)).
Proof.
  intros c s m r v I R Hr. assert (N : forall i, In i (c_used c) -> i <> r).
  { intros i Hi ->. pose proof (reg_not_user _ _ I Hi). congruence. }
  split.
  - constructor; cbn [tmp prm aux u_tmp u_prm u_vars u_aux]; try apply R.
    + intros i Hi. unfold fset. destruct (i =? r); [reflexivity|now apply R].
    + intros x i w Hx Hw. unfold fset. destruct (i =? r) eqn:E; [|now apply (rl_vars _ _ _ R x)].
      exfalso. apply (N i); [now apply (i_vars _ I x)|lia].
  - intros i Hi _. cbn [tmp]. unfold fset. destruct (i =? r) eqn:E; [|reflexivity].
    exfalso. apply (N i); [assumption|lia].
Qed.

(** The store / arithmetic step shared by both orders of evaluation. *)
Lemma finish_op : forall op c s m va vb v s', inv c -> rel c s m -> rng va ->
  (if op =? 14 then do! (user_reg vb); Some (va, mkU (fset (u_tmp s) vb va) (u_prm s) (u_vars s) (u_aux s))
   else if op =? 16 then Some (va, mkU (u_tmp s) (fset (u_prm s) vb va) (u_vars s) (u_aux s))
   else do r <- xarith op va vb; Some (r, s)) = Some (v, s') -> 0 <= op ->
  exists m', apply_op op va vb m = (v, m') /\ rel c s' m' /\ pres c m m' /\ rng v.
Proof.
  intros op c s m va vb v s' I R Rv H Hop.
  assert (Ex : xarith op va vb = arith op va vb) by (destruct op; [reflexivity|reflexivity|lia]). rewrite Ex in H. clear Ex.
  destruct (op =? 14) eqn:E14; [|destruct (op =? 16) eqn:E16]; inv_opt.
  - destruct (rel_set_user c s m vb v I R C) as [R' P].
    eexists. unfold apply_op. rewrite E14. split; [reflexivity|]. auto.
  - eexists. unfold apply_op. rewrite E14, E16. split; [reflexivity|].
    split; [|split; [|assumption]].
    + constructor; cbn [tmp prm aux u_tmp u_prm u_vars u_aux]; try apply R.
      intro i. unfold fset. destruct (i =? vb); [reflexivity|apply R].
    + intros r _ _. reflexivity.
  - exists m. rewrite (apply_arith _ _ _ _ m E) by lia.
    split; [reflexivity|]. split; [assumption|]. split; [apply pres_refl|]. eapply arith_rng, E.
Qed.

Lemma land_u32 : forall w m, rng w -> Z.land w (u32 m) = Z.land w m.
Proof.
  intros w m H. unfold u32. rewrite <- (Z.land_ones m 32) by lia. change (Z.ones 32) with 4294967295.
  rewrite (Z.land_comm m), Z.land_assoc, land_mask_id by assumption. reflexivity.
Qed.
Lemma ones_u32 : forall n, Z.land 4294967295 (Z.shiftr (Z.shiftl 1 n - 1) 0) = u32 (Z.ones n).
Proof. intro n. rewrite u32_land. reflexivity. Qed.

Lemma rel_store : forall c s m r v, inv c -> rel c s m -> 128 <= r < 256 ->
  (forall x, vget c x <> Some r) -> rel c s (mkM (fset (tmp m) r v) (prm m) (aux m)).
Proof.
  intros c s m r v I R Hr N. constructor; cbn [tmp prm aux]; try apply R.
  - intros i Hi. unfold fset. destruct (i =? r) eqn:E; [|now apply R].
    unfold user_reg in Hi. lia.
  - intros x i w Hx Hw. unfold fset. destruct (i =? r) eqn:E; [|now apply (rl_vars _ _ _ R x)].
    exfalso. apply (N x). rewrite Hx. f_equal. lia.
Qed.

Lemma rel_same : forall c c' s m, (forall x, vget c' x = vget c x) -> rel c s m -> rel c' s m.
Proof.
  intros c c' s m H R. constructor; try apply R. intros x r v Hx. rewrite H in Hx. now apply (rl_vars _ _ _ R x).
Qed.

Lemma temp_ext : forall c c' r, ext c c' -> In r (c_used c) -> (forall x, vget c x <> Some r) ->
  In r (c_used c') /\ forall x, vget c' x <> Some r.
Proof.
  intros c c' r X Hr Hx. split; [now apply (e_used _ _ X)|].
  intros x Hx'. destruct (vget c x) as [r'|] eqn:E.
  - pose proof (e_vars _ _ X _ _ E). congruence.
  - now apply (e_new _ _ X _ _ E Hx').
Qed.

Lemma exec_store : forall r last m, rng r ->
  exec G (set_op (J 26 0 0 r) 14) (last, m) = (last, mkM (fset (tmp m) r last) (prm m) (aux m)).
Proof. intros. unfold exec. cbn [fst snd]. rewrite load_const by assumption. reflexivity. Qed.

Lemma exec_op : forall j op last m v m1, load G j last m = (v, m1) ->
  exec G (set_op j op) (last, m) = apply_op op last v m1.
Proof. intros. unfold exec. cbn [fst snd]. rewrite load_set_op, H. reflexivity. Qed.

Lemma load_temp : forall r m last, rng (tmp m r) -> load G (J 125 r 0 4294967295) last m = (tmp m r, m).
Proof.
  intros r m last H. rewrite (load_direct 125 r 0 4294967295 m (u32 (tmp m r)) m); [|lia|reflexivity].
  rewrite Z.shiftr_0_r, u32_id by assumption. now rewrite land_mask_id.
Qed.

Lemma wf_const : forall v op, rng v -> 0 <= op < 256 -> wf_j (set_op (J 26 0 0 v) op).
Proof. intros. apply wf_set_op; [|assumption]. apply wf_J; auto; lia. Qed.

(** [v] read in place through a parameterless or parameterised variable. *)
Lemma direct_good : forall c2 s m var p shift mask r0 s' last, inv c2 -> rel c2 s m -> rng mask -> 0 <= shift ->
  u_read G user_reg true var p s = Some (r0, s') ->
  exists m', load G (J var p shift mask) last m = (Z.land (Z.shiftr r0 shift) mask, m')
    /\ rel c2 s' m' /\ pres c2 m m' /\ rng (Z.land (Z.shiftr r0 shift) mask) /\ rng r0.
Proof.
  intros c2 s m var p shift mask r0 s' last I R Hm Hs H.
  destruct (read_ok c2 s m true var p r0 s' I R H) as [m' [H1 [_ [H3 [H4 [H5 H6]]]]]].
  exists m'. rewrite (load_direct _ _ _ _ _ _ _ _ H3 (H1 eq_refl)).
  split; [reflexivity|]. split; [assumption|]. split; [assumption|]. split; [now apply mask_rng|assumption].
Qed.

(** A chain ending in an indirect read through 7B. *)
Lemma indirect_good : forall e p c c1 var shift mask isv codep code,
  inv c -> good p c c1 isv codep ->
  code = codep ++ 15 :: (123 :: var :: (32 + shift) :: le4 mask) ->
  0 <= var < 256 -> 0 <= shift < 32 -> rng mask ->
  is_simple e = false ->
  (forall s, eval G user_reg tab (c_subs c) e s =
     do (v, s) <- eval G user_reg tab (c_subs c) p s; do r <- u_read G user_reg false var v s; Some (field shift mask r)) ->
  forall isv', (isv' = false \/ computed_param e = true) -> good e c c1 isv' code.
Proof.
  intros e p c c1 var shift mask isv codep code I Hp Ecode Hv Hs Hm S Ev isv' Hi.
  destruct Hp as [I1 [X [j [l [Ej [Wj [Wl [_ [_ Ex]]]]]]]]].
  assert (Wi : wf_j (set_op (J 123 var shift mask) 15)).
  { apply wf_set_op; [|lia]. apply wf_J; auto; try lia. discriminate. }
  split; [assumption|]. split; [assumption|].
  exists j, (l ++ [set_op (J 123 var shift mask) 15]).
  split; [|split; [assumption|split; [|split; [|split]]]].
  - subst code codep. rewrite <- (enc_J_p 123 var shift mask eq_refl). apply enc_seq_app.
  - apply Forall_app. split; [assumption|]. constructor; [assumption|constructor].
  - destruct Hi as [->|]; [left; now rewrite S|now right].
  - rewrite S. discriminate.
  - intros s v s' m last R H. rewrite Ev in H.
    apply bind_some in H as [[v1 s1] [H1 H2]]. cbv beta iota in H2.
    apply bind_some in H2 as [r [H2 H3]]. apply some_inj in H3.
    destruct (Ex s v1 s1 m last R H1) as [m1 [E1 [R1 [P1 G1]]]].
    destruct r as [r0 s2]. unfold field in H3. cbn [fst snd] in H3. apply pair_inj in H3 as [<- <-].
    destruct (read_ok c1 s1 m1 false var v1 r0 s2 I1 R1 H2) as [m2 [_ [H5 [H6 [R2 [P2 G2]]]]]].
    exists m2. change (set_op j 15 :: l ++ [set_op (J 123 var shift mask) 15])
      with ((set_op j 15 :: l) ++ [set_op (J 123 var shift mask) 15]).
    rewrite exec_all_app, E1. cbn [exec_all].
    rewrite (exec_init _ _ _ _ _ (load_indirect var shift mask m1 r0 m2 v1 (H5 eq_refl))).
    split; [reflexivity|]. split; [assumption|]. split; [eapply pres_trans; eauto|]. now apply mask_rng.
Qed.

Lemma const_eval_Some : forall e v, const_eval e = Some v -> e = NValue v.
Proof. intros e v H. destruct e; try discriminate. injection H as <-. reflexivity. Qed.
Lemma rng_M : rng 4294967295. Proof. unfold rng; lia. Qed.

Lemma guard_inv : forall {X} (b : bool) (f : option X) r, (if b then f else None) = Some r -> b = true /\ f = Some r.
Proof. intros X [] f r H; [auto|discriminate]. Qed.

Lemma var_good : forall e x c isv code c', inv c -> (e = NVar x \/ exists p, e = NVarP x p) ->
  match tab x with None => true | Some d => vd_ok d end = true ->
  compile tab e 0 4294967295 c = Some (isv, code, c') -> good e c c' isv code.
Proof.
  intros e x c isv code c' I He S H.
  assert (Si : is_simple e = true) by (destruct He as [->|[p ->]]; reflexivity).
  assert (H' : compile tab (NVar x) 0 4294967295 c = Some (isv, code, c')) by (destruct He as [->|[p ->]]; exact H).
  assert (Ee : forall s, eval G user_reg tab (c_subs c) e s = eval G user_reg tab (c_subs c) (NVar x) s)
    by (intro; destruct He as [->|[p ->]]; reflexivity).
  clear H. cbn [compile] in H'. destruct (tab x) as [d|] eqn:Et.
  - rewrite ones_u32, Z.add_0_l in H'.
    apply guard_inv in H' as [Hs H]. apply guard_inv in H as [Hm H]. apply Z.ltb_lt in Hs.
    apply bind_some in H as [cd [Hc H]]. cbv beta in H. injection H as <- <- <-.
    unfold vd_ok in S. set (p := match vd_param d with Some p => p | None => 0 end).
    assert (W : wf_j (J (vd_var d) p (vd_start d) (u32 (Z.ones (vd_size d)))) /\
                cd = enc_seq (J (vd_var d) p (vd_start d) (u32 (Z.ones (vd_size d)))) []).
    { subst p. destruct (vd_param d) as [p|].
      - apply pk_varp_inv in Hc as [Hv [Hp [Hsh [Hmk ->]]]]; [|assumption].
        split; [apply wf_J; auto; congruence|]. now rewrite enc_J_p.
      - apply pk_var_inv in Hc as [Hv [Hsh [Hmk ->]]]; [|assumption]. apply negb_true_iff in S.
        split; [apply wf_J; auto; lia|]. now rewrite enc_J. }
    destruct W as [W ->].
    eapply good_simple; eauto.
    intros c2 s w s' m last I2 X R Ev. rewrite Ee in Ev. cbn [eval] in Ev. rewrite Et in Ev. fold p in Ev.
    apply bind_some in Ev as [[r0 s1] [Hr Ev]]. unfold field in Ev. cbn [fst snd] in Ev. inv_opt.
    destruct (direct_good c2 s m _ p (vd_start d) (u32 (Z.ones (vd_size d))) r0 s' last I2 R (w_mask _ W) (proj1 (w_shift _ W)) Hr) as [m' [L [R' [P [Rg R0]]]]].
    rewrite land_u32 in L, Rg by (apply shiftr_rng; [assumption|apply (w_shift _ W)]).
    exists m'. auto.
  - apply bind_some in H' as [reg [Hr H]]. apply bind_some in H as [cd [Hc H]]. cbv beta in H. injection H as <- <- <-.
    apply pk_varp_inv in Hc as [_ [Hp [_ [_ ->]]]]; [|lia].
    change (125 :: reg :: (32 + 0) :: le4 4294967295) with (enc_seq (J 125 reg 0 4294967295) []).
    eapply good_simple; eauto.
    + apply wf_J; auto; try lia; [discriminate|apply rng_M].
    + intros c2 s w s' m last I2 X R Ev. rewrite Ee in Ev. cbn [eval] in Ev. rewrite Et in Ev. inv_opt.
      destruct (rl_vars _ _ _ R x reg w (e_vars _ _ X _ _ Hr)) as [T Rg]; [assumption|].
      exists m. rewrite load_temp; rewrite T; auto. split; [reflexivity|]. split; [assumption|].
      split; [apply pres_refl|assumption].
Qed.

Lemma full_field : forall v, rng v -> Z.land (Z.shiftr v 0) 4294967295 = v.
Proof. intros. rewrite Z.shiftr_0_r. now apply land_mask_id. Qed.

Lemma call_good : forall e n c code, inv c -> is_simple e = true ->
  pk_varp 126 n 0 4294967295 = Some code ->
  (forall s, eval G user_reg tab (c_subs c) e s = u_read G user_reg true 126 n s) -> good e c c true code.
Proof.
  intros e n c code I S H Ev. apply pk_varp_inv in H as [_ [Hp [_ [_ ->]]]]; [|lia].
  apply good_simple with (j := J 126 n 0 4294967295); auto.
  - apply wf_J; auto; try lia; [discriminate|apply rng_M].
  - intros c2 s w s' m last I2 X R E. rewrite Ev in E.
    destruct (direct_good c2 s m 126 n 0 4294967295 w s' last I2 R rng_M (Z.le_refl 0) E) as [m' [L [R' [P [Rg R0]]]]].
    rewrite full_field in L, Rg by assumption. exists m'. auto.
Qed.

Lemma reg_good : forall var (con : node -> node) p c isv code c', inv c ->
  (var = 125 /\ con = NTemp \/ var = 124 /\ con = NPerm) -> supported tab p = true ->
  (forall c isv code c', inv c -> supported tab p = true -> compile tab p 0 4294967295 c = Some (isv, code, c') ->
     good p c c' isv code) ->
  compile tab (con p) 0 4294967295 c = Some (isv, code, c') -> good (con p) c c' isv code.
Proof.
  intros var con p c isv code c' I Hcon S IH H.
  assert (Hv : 0 <= var < 256 /\ has_param var = true /\ var <> 126) by (destruct Hcon as [[-> _]|[-> _]]; repeat split; lia).
  destruct Hv as [Hv [Hp Hn]].
  destruct (const_eval p) as [pv|] eqn:Ec.
  - apply const_eval_Some in Ec; subst p.
    assert (Hc : pk_varp var pv 0 4294967295 = Some code /\ isv = true /\ c' = c).
    { destruct Hcon as [[-> ->]|[-> ->]]; cbn [compile const_eval] in H; change (0 <? 32) with true in H;
        change (4294967295 <=? 4294967295) with true in H; cbv iota in H;
        apply bind_some in H as [cd [Hc H]]; cbv beta in H; injection H as <- <- <-; auto. }
    destruct Hc as [Hc [-> ->]]. apply pk_varp_inv in Hc as [_ [Hpv [_ [_ ->]]]]; [|lia].
    assert (Si : is_simple (con (NValue pv)) = true) by (destruct Hcon as [[-> ->]|[-> ->]]; reflexivity).
    apply good_simple with (j := J var pv 0 4294967295); auto.
    + now rewrite enc_J_p.
    + apply wf_J; auto; try lia; [congruence|apply rng_M].
    + intros c2 s w s' m last I2 X R E.
      assert (E' : u_read G user_reg true var pv s = Some (w, s')) by (destruct Hcon as [[-> ->]|[-> ->]]; exact E).
      destruct (direct_good c2 s m var pv 0 4294967295 w s' last I2 R rng_M (Z.le_refl 0) E') as [m' [L [R' [P [Rg R0]]]]].
      rewrite full_field in L, Rg by assumption. exists m'. auto.
  - assert (Hc : exists isp cp, compile tab p 0 4294967295 c = Some (isp, cp, c') /\ isv = false /\
                   code = cp ++ 15 :: 123 :: var :: (32 + 0) :: le4 4294967295).
    { destruct Hcon as [[-> ->]|[-> ->]]; cbn [compile] in H; rewrite Ec in H; change (0 <? 32) with true in H;
        change (4294967295 <=? 4294967295) with true in H; cbv iota in H;
        apply bind_some in H as [[[isp cp] c1] [Hp' H]]; cbv beta iota in H;
        apply bind_some in H as [ld [Hld H]]; cbn [concat_opt] in Hld;
        apply bind_some in Hld as [x1 [H1 Hld]];
        apply bind_some in Hld as [x2 [Hx2 Hld]]; apply bind_some in Hx2 as [x3 [H3 Hx2]];
        (apply pk_varp_inv in H3 as [_ [_ [_ [_ ->]]]]; [|lia]); inv_opt; inv_pack;
        exists isp, cp; auto. }
    destruct Hc as [isp [cp [Hc [-> ->]]]].
    assert (Si : is_simple (con p) = false) by (destruct Hcon as [[-> ->]|[-> ->]]; destruct p; try reflexivity; discriminate).
    eapply (indirect_good (con p) p c c' var 0 4294967295 isp cp); eauto; try lia; [apply rng_M|].
    intro s.
    assert (Eq : eval G user_reg tab (c_subs c) (con p) s = do (v, s) <- eval G user_reg tab (c_subs c) p s; u_read G user_reg false var v s).
    { destruct Hcon as [[-> ->]|[-> ->]]; cbn [eval]; destruct p; try reflexivity; discriminate. }
    rewrite Eq. destruct (eval G user_reg tab (c_subs c) p s) as [[v1 s1]|]; [|reflexivity]. cbn [bind].
    destruct (u_read G user_reg false var v1 s1) as [[r0 s2]|] eqn:Eu; [|reflexivity]. cbn [bind].
    unfold field. cbn [fst snd]. rewrite full_field; [reflexivity|].
    unfold u_read in Eu. destruct (var =? 26); [inv_opt; unfold rng; lia|].
    destruct (var =? 125); [inv_opt; apply u32_rng|]. destruct (var =? 124); [inv_opt; apply u32_rng|].
    destruct (var =? 126) eqn:E126; [lia|]. destruct (var =? 123); [discriminate|]. inv_opt. apply u32_rng.
Qed.

Theorem compile_good : forall e c isv code c', inv c -> supported tab e = true ->
  compile tab e 0 4294967295 c = Some (isv, code, c') -> good e c c' isv code.
Proof.
  induction e as [op a IHa b IHb|x e IHe|v|x|x p IHp|var sh mk adj|var sh mk adj p IHp|p IHp|p IHp|n|x];
    intros c isv code c' I S H; cbn [supported] in S.
  - (* NExpr *)
    rewrite !andb_true_iff in S. destruct S as [[[So Sa] Sb] Sc]. apply negb_true_iff in Sc.
    assert (Ho : 0 <= op < 256) by (unfold op_ok in So; lia).
    cbn [compile] in H. apply bind_some in H as [[[isb bcode] c1] [Hb H]]. cbv beta iota in H.
    specialize (IHb c isb bcode c1 I Sb Hb).
    destruct IHb as [I1 [X1 [jb [lb [Eb [Wjb [Wlb [Hisb [Hsb Exb]]]]]]]]].
    destruct Hisb as [Hisb|Hc]; [|congruence].
    destruct isb.
    + (* right operand in place *)
      apply bind_some in H as [[[isa acode] c2] [Ha H]]. cbv beta iota in H. inv_opt. inv_pack.
      destruct (Hsb (eq_sym Hisb)) as [-> [-> Lb]].
      destruct (IHa c isa acode c' I Sa Ha) as [I2 [X2 [ja [la [Ea [Wja [Wla [_ [_ Exa]]]]]]]]].
      split; [assumption|]. split; [assumption|].
      exists ja, (la ++ [set_op jb op]). split; [|split; [assumption|split; [|split; [|split]]]].
      * rewrite Ea. cbn [app]. apply enc_seq_app.
      * apply Forall_app. split; [assumption|]. constructor; [now apply wf_set_op|constructor].
      * now left.
      * discriminate.
      * intros s v s' m last R HE. clear H || idtac. rename HE into H. cbn [eval] in H. rewrite <- Hisb in H.
        apply bind_some in H as [[[va vb] s2] [H H']]. cbv beta iota in H'.
        apply bind_some in H as [[va' s1] [H1 H]]. cbv beta iota in H.
        apply bind_some in H as [[vb' s2'] [H2 H]]. cbv beta iota in H. inv_opt.
        destruct (Exa s va s1 m last R H1) as [m1 [E1 [R1 [P1 G1]]]].
        destruct (Lb c' s1 vb s2 m1 va I2 X2 R1 H2) as [m2 [E2 [R2 [P2 G2]]]].
        destruct (finish_op op c' s2 m2 va vb v s' I2 R2 G1 H' ltac:(lia)) as [m3 [E3 [R3 [P3 G3]]]].
        exists m3. change (set_op ja 15 :: la ++ [set_op jb op]) with ((set_op ja 15 :: la) ++ [set_op jb op]).
        rewrite exec_all_app, E1. cbn [exec_all]. rewrite (exec_op _ _ _ _ _ _ E2).
        split; [assumption|]. split; [assumption|]. split; [|assumption].
        eapply pres_trans; [exact X2|exact P1|]. eapply pres_trans; [apply ext_refl|exact P2|exact P3].
    + (* right operand first, kept in a register *)
      apply bind_some in H as [[reg c2] [Hres H]]. cbv beta iota in H.
      apply bind_some in H as [st [Hst H]]. cbv beta in H.
      apply bind_some in H as [[[isa acode] c3] [Ha H]]. cbv beta iota in H.
      apply bind_some in H as [ld [Hld H]]. cbv beta in H.
      apply bind_some in H as [c4 [Hrel H]]. cbv beta in H. inv_opt.
      destruct (reserve_ok _ _ _ I1 Hres) as [I2 [Nr [Hr [U2 [V2 [S2 _]]]]]].
      destruct (IHa c2 isa acode c3 I2 Sa Ha) as [I3 [X3 [ja [la [Ea [Wja [Wla [_ [_ Exa]]]]]]]]].
      destruct (release_ok c1 reg c2 c3 c' I1 Hres I3 X3 Hrel) as [I4 X4].
      assert (Rr : rng reg) by (unfold rng; lia).
      assert (Est : st = 14 :: enc_seq (J 26 0 0 reg) [] ++ [15]).
      { cbn [concat_opt] in Hst. inv_opt. inv_pack. reflexivity. }
      assert (Eld : ld = op :: enc_seq (J 125 reg 0 4294967295) []).
      { cbn [concat_opt] in Hld. apply bind_some in Hld as [x1 [Hx1 Hld]]. cbv beta in Hld.
        apply bind_some in Hld as [x2 [Hx2 Hld]]. apply bind_some in Hx2 as [x3 [Hx3 Hx2]].
        apply pk_varp_inv in Hx3 as [_ [_ [_ [_ ->]]]]; [|lia]. inv_opt. inv_pack. reflexivity. }
      split; [assumption|]. split; [eapply ext_trans; eauto|].
      exists jb, (lb ++ set_op (J 26 0 0 reg) 14 :: set_op ja 15 :: la ++ [set_op (J 125 reg 0 4294967295) op]).
      split; [|split; [assumption|split; [|split; [|split]]]].
      * rewrite Est, Eld, Ea.
        rewrite <- (enc_seq_app jb lb 14 (J 26 0 0 reg)).
        change (set_op ja 15 :: la ++ [set_op (J 125 reg 0 4294967295) op])
          with ([] ++ set_op ja 15 :: la ++ [set_op (J 125 reg 0 4294967295) op]).
        rewrite <- (enc_seq_app (J 26 0 0 reg) [] 15 ja).
        change ([set_op (J 125 reg 0 4294967295) op]) with (set_op (J 125 reg 0 4294967295) op :: []).
        rewrite <- (enc_seq_app ja la op (J 125 reg 0 4294967295)).
        cbn [app]. rewrite <- app_assoc. reflexivity.
      * apply Forall_app. split; [assumption|]. constructor; [now apply wf_const|].
        constructor; [apply wf_set_op; [assumption|lia]|]. apply Forall_app. split; [assumption|].
        constructor; [|constructor]. apply wf_set_op; [|assumption]. apply wf_J; auto; try lia; [discriminate|apply rng_M].
      * now left.
      * discriminate.
      * intros s v s' m last R HE. clear H || idtac. rename HE into H. cbn [eval] in H. rewrite <- Hisb in H.
        apply bind_some in H as [[[va vb] s2] [H H']]. cbv beta iota in H'.
        apply bind_some in H as [[vb' s1] [H1 H]]. cbv beta iota in H.
        apply bind_some in H as [[va' s2'] [H2 H]]. cbv beta iota in H. inv_opt.
        destruct (Exb s vb s1 m last R H1) as [m1 [E1 [R1 [P1 G1]]]].
        set (m2 := mkM (fset (tmp m1) reg vb) (prm m1) (aux m1)).
        assert (NV1 : forall x, vget c1 x <> Some reg).
        { intros x Hx. apply Nr. now apply (i_vars _ I1 x). }
        assert (V21 : forall x, vget c2 x = vget c1 x) by (intro; unfold vget; now rewrite V2).
        assert (R2 : rel c2 s1 m2).
        { apply (rel_same c1); [assumption|]. now apply rel_store. }
        assert (Esub : c_subs c2 = c_subs c) by (rewrite S2; apply (e_subs _ _ X1)).
        rewrite Esub in Exa.
        destruct (Exa s1 va s2 m2 vb R2 H2) as [m3 [E3 [R3 [P3 G3]]]].
        assert (T : tmp m3 reg = vb).
        { rewrite (P3 reg); [unfold m2; cbn [tmp]; unfold fset; now rewrite Z.eqb_refl| |].
          - rewrite U2. now left.
          - intro x. rewrite V21. apply NV1. }
        destruct (finish_op op c3 s2 m3 va vb v s' I3 R3 G3 H' ltac:(lia)) as [m4 [E4 [R4 [P4 G4]]]].
        exists m4.
        change (set_op jb 15 :: lb ++ set_op (J 26 0 0 reg) 14 :: set_op ja 15 :: la ++ [set_op (J 125 reg 0 4294967295) op])
          with ((set_op jb 15 :: lb) ++ [set_op (J 26 0 0 reg) 14] ++ (set_op ja 15 :: la) ++ [set_op (J 125 reg 0 4294967295) op]).
        rewrite !exec_all_app, E1. cbn [exec_all]. rewrite exec_store by assumption. fold m2.
        change (exec_all G la (exec G (set_op ja 15) (vb, m2))) with (exec_all G (set_op ja 15 :: la) (vb, m2)).
        rewrite E3.
        rewrite (exec_op (J 125 reg 0 4294967295) op va m3 vb m3)
          by (rewrite load_temp; rewrite T; [reflexivity|assumption]).
        split; [assumption|]. split.
        { apply (rel_same c3); [|assumption]. unfold release_register in Hrel. inv_opt. reflexivity. }
        split; [|assumption].
        intros r Hr' Hx. destruct (temp_ext _ _ _ X1 Hr' Hx) as [Hr1 Hx1].
        assert (Hr2 : In r (c_used c2)) by (rewrite U2; now right).
        assert (Hx2 : forall x, vget c2 x <> Some r) by (intro; rewrite V21; apply Hx1).
        destruct (temp_ext _ _ _ X3 Hr2 Hx2) as [Hr3 Hx3].
        rewrite (P4 r Hr3 Hx3), (P3 r Hr2 Hx2). rewrite <- (P1 r Hr' Hx).
        unfold m2. cbn [tmp]. unfold fset. destruct (r =? reg) eqn:E; [|reflexivity].
        exfalso. apply Nr. apply Z.eqb_eq in E. now subst.
  - (* NAssign *)
    destruct (tab x) eqn:Et; [discriminate|].
    cbn [compile] in H. apply bind_some in H as [[[isv1 code1] c1] [He H]]. cbv beta iota in H.
    apply bind_some in H as [[reg c2] [Hres H]]. cbv beta iota in H.
    apply bind_some in H as [st [Hst H]]. cbv beta in H. inv_opt.
    destruct (IHe c isv1 code1 c1 I S He) as [I1 [X1 [j [l [Ej [Wj [Wl [_ [_ Ex]]]]]]]]].
    destruct (reserve_var_ok _ _ _ _ I1 Hres) as [I2 [X2 [Gx [Hr Go]]]].
    assert (Rr : rng reg) by (unfold rng; lia).
    assert (Est : st = 14 :: enc_seq (J 26 0 0 reg) []).
    { cbn [concat_opt] in Hst. inv_opt. inv_pack. reflexivity. }
    assert (X : ext c c') by (eapply ext_trans; eauto).
    split; [assumption|]. split; [assumption|].
    exists j, (l ++ [set_op (J 26 0 0 reg) 14]). split; [|split; [assumption|split; [|split; [|split]]]].
    + rewrite Est, Ej. apply enc_seq_app.
    + apply Forall_app. split; [assumption|]. constructor; [now apply wf_const|constructor].
    + now left.
    + discriminate.
    + intros s v s' m last R HE. clear H || idtac. rename HE into H. cbn [eval] in H.
      apply bind_some in H as [[v1 s1] [H1 H]]. cbv beta iota in H. inv_opt.
      destruct (Ex s v s1 m last R H1) as [m1 [E1 [R1 [P1 G1]]]].
      eexists. change (set_op j 15 :: l ++ [set_op (J 26 0 0 reg) 14])
        with ((set_op j 15 :: l) ++ [set_op (J 26 0 0 reg) 14]).
      rewrite exec_all_app, E1. cbn [exec_all]. rewrite exec_store by assumption.
      split; [reflexivity|]. split; [|split; [|assumption]].
      * constructor; cbn [tmp prm aux u_tmp u_prm u_vars u_aux]; try apply R1.
        -- intros r Hr'. unfold fset. destruct (r =? reg) eqn:E; [unfold user_reg in Hr'; lia|now apply R1].
        -- intros y r w Hy Hw. rewrite dict_get_set in Hw. destruct (bytes_eqb y x) eqn:Eyx.
           ++ apply bytes_eqb_iff in Eyx; subst y. injection Hw as <-.
              assert (r = reg) by congruence. subst r. unfold fset. rewrite Z.eqb_refl. auto.
           ++ assert (y <> x) by (intros ->; rewrite (proj2 (bytes_eqb_iff x x) eq_refl) in Eyx; discriminate).
              unfold fset. destruct (r =? reg) eqn:E.
              ** apply Z.eqb_eq in E; subst r. exfalso. apply H. now apply (i_inj _ I2 y x reg).
              ** rewrite Go in Hy by assumption. now apply (rl_vars _ _ _ R1 y).
      * intros r Hr' Hx. destruct (temp_ext _ _ _ X Hr' Hx) as [_ Hx'].
        rewrite <- (P1 r Hr' Hx). cbn [tmp]. unfold fset. destruct (r =? reg) eqn:E; [|reflexivity].
        apply Z.eqb_eq in E; subst r. exfalso. now apply (Hx' x).
  - (* NValue *)
    cbn [compile] in H. rewrite Z.land_comm, u32_land in H. inv_opt.
    apply good_simple with (j := J 26 0 0 (u32 v)); auto.
    + cbn [concat_opt] in E. inv_opt. inv_pack. reflexivity.
    + apply wf_J; try lia. apply u32_rng.
    + intros c2 s w s' m last I2 X R Ev. cbn [eval] in Ev. inv_opt.
      exists m. change (J 26 0 0 (u32 v)) with (set_op (J 26 0 0 (u32 v)) 15).
      rewrite load_const by apply u32_rng. split; [reflexivity|]. split; [assumption|].
      split; [apply pres_refl|apply u32_rng].
  - (* NVar *) now apply (var_good (NVar x) x c isv code c' I (or_introl eq_refl)).
  - (* NVarP *) apply (var_good (NVarP x p) x c isv code c' I (or_intror (ex_intro _ p eq_refl))); assumption.
  - (* NGen *)
    cbn [compile] in H. rewrite u32_land, Z.add_0_l in H.
    apply guard_inv in H as [Hs H]. apply guard_inv in H as [Hm H]. apply Z.ltb_lt in Hs.
    destruct adj; [discriminate|]. apply bind_some in H as [cd [Hc H]]. cbv beta in H. injection H as <- <- <-.
    apply negb_true_iff in S. apply pk_var_inv in Hc as [Hv [Hsh [Hmk ->]]]; [|assumption].
    apply good_simple with (j := J var 0 sh (u32 mk)); auto.
    + now rewrite enc_J.
    + apply wf_J; auto; lia.
    + intros c2 s w s' m last I2 X R Ev. cbn [eval] in Ev.
      apply bind_some in Ev as [[r0 s1] [Hr Ev]]. unfold field in Ev. cbn [fst snd] in Ev. inv_opt.
      destruct (direct_good c2 s m var 0 sh (u32 mk) r0 s' last I2 R Hmk Hsh Hr) as [m' [L [R' [P [Rg _]]]]].
      exists m'. auto.
  - (* NGenP *)
    apply andb_true_iff in S as [Sp Sh].
    cbn [compile] in H. rewrite u32_land, Z.add_0_l in H.
    apply guard_inv in H as [Hs H]. apply guard_inv in H as [Hm H]. apply Z.ltb_lt in Hs.
    destruct adj; [discriminate|].
    destruct (const_eval p) as [pv|] eqn:Ec.
    + apply const_eval_Some in Ec; subst p. destruct (255 <? pv) eqn:Eb.
      * apply bind_some in H as [cd [Hc H]]. cbv beta in H. injection H as <- <- <-.
        cbn [concat_opt] in Hc.
        apply bind_some in Hc as [x1 [H1 Hc]]. apply bind_some in Hc as [x2 [Hx2 Hc]].
        apply bind_some in Hx2 as [x3 [H3 Hx2]]. apply bind_some in Hx2 as [x4 [Hx4 Hx2]].
        apply bind_some in Hx4 as [x5 [H5 Hx4]]. apply bind_some in Hx4 as [x6 [Hx6 Hx4]].
        apply bind_some in Hx6 as [x7 [H7 Hx6]]. apply bind_some in Hx6 as [x8 [Hx8 Hx6]].
        apply bind_some in Hx8 as [x9 [H9 Hx8]].
        apply pk_varp_inv in H9 as [_ [Hv [Hsh [Hmk ->]]]]; [|assumption].
        inv_opt. inv_pack.
        assert (Rv : rng pv) by (unfold rng; lia).
        eapply (indirect_good (NGenP var sh mk None (NValue pv)) (NValue pv) c c var sh (u32 mk) true (enc_seq (J 26 0 0 pv) [])); auto; try lia.
        -- apply good_simple with (j := J 26 0 0 pv); auto.
           ++ apply wf_J; auto; lia.
           ++ intros c2 s w s' m last I2 X R Ev. cbn [eval] in Ev. inv_opt.
              exists m. rewrite (u32_id pv Rv). change (J 26 0 0 pv) with (set_op (J 26 0 0 pv) 15).
              rewrite load_const by assumption. split; [reflexivity|]. split; [assumption|].
              split; [apply pres_refl|assumption].
        -- cbn [is_simple]. lia.
        -- intro s. cbn [eval bind]. rewrite (u32_id pv Rv). assert (pv <=? 255 = false) as -> by lia. reflexivity.
        -- right. cbn [computed_param is_simple]. lia.
      * apply bind_some in H as [cd [Hc H]]. cbv beta in H. injection H as <- <- <-.
        apply pk_varp_inv in Hc as [Hv [Hp [Hsh [Hmk ->]]]]; [|assumption].
        assert (Si : is_simple (NGenP var sh mk None (NValue pv)) = true) by (cbn [is_simple]; lia).
        rewrite Si in Sh. cbn [negb orb] in Sh. rename Sh into Hp'.
        apply good_simple with (j := J var pv sh (u32 mk)); auto.
        -- now rewrite enc_J_p.
        -- apply wf_J; auto; try congruence; lia.
        -- intros c2 s w s' m last I2 X R Ev. cbn [eval] in Ev. assert (Eb' : pv <=? 255 = true) by lia.
           rewrite Eb' in Ev.
           apply bind_some in Ev as [[r0 s1] [Hr Ev]]. unfold field in Ev. cbn [fst snd] in Ev. inv_opt.
           destruct (direct_good c2 s m var pv sh (u32 mk) r0 s' last I2 R Hmk Hsh Hr) as [m' [L [R' [P [Rg _]]]]].
           exists m'. auto.
    + apply bind_some in H as [[[isp cp] c1] [Hp H]]. cbv beta iota in H.
      apply bind_some in H as [ld [Hld H]]. cbv beta in H. injection H as <- <- <-.
      cbn [concat_opt] in Hld. apply bind_some in Hld as [x1 [H1 Hld]].
      apply bind_some in Hld as [x2 [Hx2 Hld]]. apply bind_some in Hx2 as [x3 [H3 Hx2]].
      apply pk_varp_inv in H3 as [_ [Hv [Hsh [Hmk ->]]]]; [|assumption]. inv_opt. inv_pack.
      assert (Si : is_simple (NGenP var sh mk None p) = false) by (destruct p; try reflexivity; discriminate).
      eapply (indirect_good _ p c c1 var sh (u32 mk) isp cp); eauto; try lia.
      * intro s. cbn [eval]. destruct p; try reflexivity; discriminate.
      * right. cbn [computed_param]. now rewrite Si.
  - (* NTemp *) apply (reg_good 125 NTemp p c isv code c' I); auto.
  - (* NPerm *) apply (reg_good 124 NPerm p c isv code c' I); auto.
  - (* NCall *)
    cbn [compile] in H. apply guard_inv in H as [Hn H]. apply guard_inv in H as [_ H]. apply guard_inv in H as [_ H].
    apply bind_some in H as [cd [Hc H]]. cbv beta in H. injection H as <- <- <-.
    apply (call_good (NCall n) n); auto.
  - (* NCallN *)
    cbn [compile] in H. apply guard_inv in H as [_ H]. apply guard_inv in H as [_ H].
    apply bind_some in H as [r [Hr H]]. apply bind_some in H as [cd [Hc H]]. cbv beta in H. injection H as <- <- <-.
    apply (call_good (NCallN x) (sub_id r)); auto. intro s. cbn [eval]. now rewrite Hr.
Qed.
End Correct.
