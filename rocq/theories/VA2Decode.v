(** Proofs for C11: decoding and recompiling VarAction2 records. *)
From Coq Require Import ZArith List Bool Lia ZifyBool.
From Verif Require Import Base BaseFacts CommonModel CommonProofs RecordsModel RecordsProofs Action14Model
  Action14Proofs EncodableProofs VA2Model SpecVA2 VA2Proofs VA2Compile VA2Switch VA2Simplify VA2DecodeModel SpecVA2Decode.
Import ListNotations.
Open Scope Z_scope.

(** ** Reading backwards *)
Lemma rd_B_inv : forall d v r, rd_B d = Some (v, r) -> bytesb d = true -> d = v :: r /\ 0 <= v < 256 /\ bytesb r = true.
Proof.
  intros [|b d] v r H B; [discriminate|]. cbn in H. injection H as <- <-. cbn [bytesb forallb] in B.
  apply andb_true_iff in B as [B1 B2]. unfold byteb in B1. split; [reflexivity|]. split; [lia|exact B2].
Qed.
Lemma rd_H_inv : forall d v r, rd_H d = Some (v, r) -> bytesb d = true ->
  d = [v mod 256; v / 256] ++ r /\ 0 <= v < 65536 /\ bytesb r = true.
Proof.
  intros d v r H B. unfold rd_H in H. apply bind_some in H as [[b0 d0] [H0 H]]. cbv beta iota in H.
  apply bind_some in H as [[b1 d1] [H1 H]]. cbv beta iota in H. apply some_inj in H; apply pair_inj in H as [<- <-].
  apply rd_B_inv in H0 as [-> [R0 B0]]; [|assumption]. apply rd_B_inv in H1 as [-> [R1 B1]]; [|assumption].
  rewrite lor_shift by (try change (2 ^ 8) with 256; lia). change (2 ^ 8) with 256.
  cbn [app]. split; [f_equal; [lia|f_equal; lia]|]. split; [lia|assumption].
Qed.
Lemma rd_I_inv : forall d v r, rd_I d = Some (v, r) -> bytesb d = true ->
  d = le4 v ++ r /\ rng v /\ bytesb r = true.
Proof.
  intros d v r H B. unfold rd_I in H. apply bind_some in H as [[b0 d0] [H0 H]]. cbv beta iota in H.
  apply bind_some in H as [[b1 d1] [H1 H]]. cbv beta iota in H.
  apply bind_some in H as [[b2 d2] [H2 H]]. cbv beta iota in H.
  apply bind_some in H as [[b3 d3] [H3 H]]. cbv beta iota in H. apply some_inj in H; apply pair_inj in H as [<- <-].
  apply rd_B_inv in H0 as [-> [R0 B0]]; [|assumption]. apply rd_B_inv in H1 as [-> [R1 B1]]; [|assumption].
  apply rd_B_inv in H2 as [-> [R2 B2]]; [|assumption]. apply rd_B_inv in H3 as [-> [R3 B3]]; [|assumption].
  rewrite (lor_shift b0 b1 8) by (try change (2 ^ 8) with 256; lia). change (2 ^ 8) with 256.
  rewrite (lor_shift _ b2 16) by (try change (2 ^ 16) with 65536; lia). change (2 ^ 16) with 65536.
  rewrite lor_shift by (try change (2 ^ 24) with 16777216; lia). change (2 ^ 24) with 16777216.
  unfold le4, rng. cbn [app]. change (2 ^ 32) with 4294967296.
  split; [|split; [lia|assumption]]. do 3 (f_equal; [lia|]). f_equal; lia.
Qed.

Definition opnd (j : adjust) : option node := if has_param (j_var j) then Some (NValue (j_param j)) else None.

(** What the loop builds from parsed instructions. *)
Fixpoint build (vinv : option inv_table) (code : list node) (acc : option node) (l : list adjust) : option (list node) :=
  match l with
  | [] => do a <- acc; Some (code ++ [a])
  | j :: l =>
      do node <- get_var_node vinv acc (j_var j) (opnd j) (j_shift j) (j_mask j) None;
      let '(code, acc) := match acc with
                          | None => (code, node)
                          | Some a =>
                              if j_op j =? OP_INIT then ((if negb (j_var j =? 123) then code ++ [a] else code), node)
                              else (code, NExpr (j_op j) a node)
                          end in
      build vinv code (Some acc) l
  end.

Definition is_none {X} (o : option X) : bool := match o with None => true | Some _ => false end.

Lemma land31 : forall v, 0 <= v < 256 -> Z.land v 31 = v mod 32.
Proof. intros v H. change 31 with (Z.ones 5). now rewrite Z.land_ones by lia. Qed.
Lemma land32 : forall v, 0 <= v -> negb (Z.land v 32 =? 0) = Z.testbit v 5.
Proof.
  intros v H. destruct (Z.testbit v 5) eqn:E.
  - destruct (Z.land v 32 =? 0) eqn:F; [|reflexivity]. apply Z.eqb_eq in F.
    assert (X : Z.testbit (Z.land v 32) 5 = true) by (rewrite Z.land_spec, E; reflexivity).
    rewrite F in X. rewrite Z.bits_0 in X. discriminate.
  - assert (X : Z.land v 32 = 0); [|rewrite X; reflexivity].
    apply Z.bits_inj'. intros n Hn. rewrite Z.land_spec, Z.bits_0. change 32 with (2 ^ 5).
    rewrite Z.pow2_bits_eqb by lia. destruct (5 =? n) eqn:F; [|now rewrite andb_false_r].
    apply Z.eqb_eq in F; subst n. now rewrite E.
Qed.

Definition all0 (l : list adjust) : Prop := Forall (fun j => j_type j = 0) l.

(** Parsing, the decoder's loop and the bytes, together. *)
Lemma dec_parse : forall fuel vinv code acc d l r, bytesb d = true ->
  parse_adjusts fuel (is_none acc) d = Some (l, r) -> all0 l ->
  dec_loop fuel vinv 2 code acc d = (do lines <- build vinv code acc l; Some (lines, r)) /\
  exists j l', l = j :: l' /\ wf_j j /\ Forall wf_j l' /\ bytesb r = true /\ (is_none acc = true -> j_op j = 0) /\
    d = (if is_none acc then [] else [j_op j]) ++ enc_fin j l' ++ r.
Proof.
  induction fuel as [|fuel IH]; intros vinv code acc d l r B H Z0; [discriminate|].
  cbn [parse_adjusts] in H. apply bind_some in H as [[op d1] [H1 H]]. cbv beta iota in H.
  assert (E1 : (match acc with None => Some (0, d) | Some _ => rd_B d end) = Some (op, d1))
    by (destruct acc; exact H1).
  assert (B1 : bytesb d1 = true /\ 0 <= op < 256 /\ (is_none acc = true -> op = 0) /\ d = (if is_none acc then [] else [op]) ++ d1).
  { destruct acc; cbn [is_none] in *.
    - apply rd_B_inv in H1 as [-> [? ?]]; [|assumption]. repeat split; auto; lia.
    - injection H1 as <- <-. repeat split; auto; lia. }
  destruct B1 as [B1 [Rop [Op0 Ed]]].
  apply bind_some in H as [[var d2] [H2 H]]. cbv beta iota in H.
  apply rd_B_inv in H2 as [-> [Rvar B2]]; [|assumption].
  apply bind_some in H as [[param d3] [H3 H]]. cbv beta iota in H.
  assert (E3 : (if (96 <=? var) && (var <? 128) then do (p, d) <- rd_B d2; Some (Some (NValue p), d) else Some (None, d2))
     = Some ((if has_param var then Some (NValue param) else None), d3)).
  { fold (has_param var). destruct (has_param var); [rewrite H3; reflexivity|]. injection H3 as <- <-. reflexivity. }
  assert (B3 : bytesb d3 = true /\ 0 <= param < 256 /\ (has_param var = false -> param = 0) /\
     d2 = (if has_param var then [param] else []) ++ d3).
  { destruct (has_param var).
    - apply rd_B_inv in H3 as [-> [? ?]]; [|assumption]. repeat split; auto; try lia.
    - injection H3 as <- <-. repeat split; auto; lia. }
  destruct B3 as [B3 [Rparam [Param0 Ed2]]].
  apply bind_some in H as [[adj d4] [H4 H]]. cbv beta iota in H.
  apply rd_B_inv in H4 as [-> [Radj B4]]; [|assumption].
  apply bind_some in H as [[mask d5] [H5 H]]. cbv beta iota in H.
  pose proof H5 as H5'. apply rd_I_inv in H5' as [Ed4 [Rmask B5]]; [|assumption].
  apply bind_some in H as [[[add dv] d6] [H6 H]]. cbv beta iota zeta in H.
  assert (T0 : adj / 64 = 0).
  { destruct (Z.testbit adj 5).
    - apply bind_some in H as [[l0 r0] [_ H]]. cbv beta iota in H. injection H as <- <-. now inversion Z0.
    - injection H as <- <-. now inversion Z0. }
  rewrite T0 in *. change (0 =? 0) with true in H6. cbv iota in H6. injection H6 as <- <- <-.
  set (j := mkAdj op var param (adj mod 32) 0 mask 0 0) in *.
  assert (W : wf_j j) by (constructor; cbn; auto; lia).
  cbn [dec_loop]. rewrite E1. cbn [bind]. rewrite rd_B_cons. cbn [bind]. rewrite E3. cbn [bind].
  rewrite rd_B_cons. cbn [bind]. unfold rd_var at 1. change (2 =? 0) with false. change (2 =? 1) with false.
  change (2 =? 2) with true. cbv iota. rewrite H5. cbn [bind].
  rewrite Z.shiftr_div_pow2 by lia. change (2 ^ 6) with 64. rewrite T0. change (negb (0 =? 0)) with false. cbv iota.
  cbn [bind]. rewrite land31, land32 by lia.
  assert (Eb : forall m : bool, Z.testbit adj 5 = m -> adj = (if m then 32 else 0) + adj mod 32).
  { intros m <-. rewrite Z.testbit_eqb by lia. change (2 ^ 5) with 32. destruct ((adj / 32) mod 2 =? 1) eqn:Em; lia. }
  assert (Enc : forall m : bool, Z.testbit adj 5 = m -> d = (if is_none acc then [] else [op]) ++
     (var :: (if has_param var then [param] else []) ++ ((if m then 32 else 0) + adj mod 32) :: le4 mask) ++ d5).
  { intros m Em. rewrite Ed, Ed2, Ed4. rewrite <- (Eb m Em). cbn [app]. f_equal. f_equal. now rewrite <- app_assoc. }
  change (if has_param var then Some (NValue param) else None) with (opnd j).
  destruct (Z.testbit adj 5) eqn:Ebit.
  - apply bind_some in H as [[l0 r0] [H7 H]]. cbv beta iota in H. injection H as <- <-.
    inversion Z0 as [|? ? Zj Zl]; subst.
    cbn [build]. change (j_var j) with var. change (j_shift j) with (adj mod 32). change (j_mask j) with mask. change (j_op j) with op.
    assert (G : forall code' a', dec_loop fuel vinv 2 code' (Some a') d5 = (do lines <- build vinv code' (Some a') l0; Some (lines, r0)) /\
      exists k l', l0 = k :: l' /\ wf_j k /\ Forall wf_j l' /\ bytesb r0 = true /\ d5 = [j_op k] ++ enc_fin k l' ++ r0).
    { intros code' a'. destruct (IH vinv code' (Some a') d5 l0 r0 B5 H7 Zl) as [X [k [l' [Y1 [Y2 [Y3 [Y4 [_ Y5]]]]]]]].
      split; [exact X|]. exists k, l'. auto. }
    split.
    + destruct (get_var_node vinv acc var (opnd j) (adj mod 32) mask None) as [nd|]; [|reflexivity]. cbn [bind].
      destruct acc as [a|]; [destruct (op =? OP_INIT)|]; apply G.
    + destruct (G [] (NValue 0)) as [_ [k [l' [-> [Wk [Wl' [Br Ed5]]]]]]].
      exists j, (k :: l'). do 2 (split; [auto|]). split; [now constructor|]. split; [assumption|]. split; [assumption|].
      rewrite (Enc true eq_refl). cbn [enc_fin]. rewrite Ed5. unfold enc_j. cbn [j_var j_param j_shift j_mask j_op j].
      rewrite <- !app_assoc. cbn [app]. rewrite <- !app_assoc. reflexivity.
  - injection H as <- <-. cbn [build]. split.
    + change (j_var j) with var. change (j_shift j) with (adj mod 32). change (j_mask j) with mask. change (j_op j) with op.
      destruct (get_var_node vinv acc var (opnd j) (adj mod 32) mask None) as [nd|]; [|reflexivity]. cbn [bind].
      destruct acc as [a|]; [destruct (op =? OP_INIT)|]; reflexivity.
    + exists j, []. do 2 (split; [auto|]). split; [constructor|]. split; [assumption|]. split; [assumption|].
      rewrite (Enc false eq_refl). cbn [enc_fin]. unfold enc_last. reflexivity.
Qed.

Lemma lor32' : forall s, 0 <= s < 32 -> Z.lor 32 s = 32 + s.
Proof. intros s H. apply lor32; [lia|]. apply Z.lor_nonneg. lia. Qed.
Lemma pk_var_ok : forall var shift mask, 0 <= var < 256 -> 0 <= shift < 32 -> rng mask ->
  pk_var var shift mask = Some (var :: (32 + shift) :: le4 mask).
Proof.
  intros var shift mask H1 H2 H3. unfold pk_var, rng in *. cbn [concat_opt]. rewrite lor32' by lia.
  change (2 ^ 32) with 4294967296 in H3. packs1. reflexivity.
Qed.
Lemma pk_varp_ok : forall var p shift mask, 0 <= var < 256 -> 0 <= p < 256 -> 0 <= shift < 32 -> rng mask ->
  pk_varp var p shift mask = Some (var :: p :: (32 + shift) :: le4 mask).
Proof.
  intros var p shift mask H1 H0 H2 H3. unfold pk_varp, rng in *. cbn [concat_opt]. rewrite lor32' by lia.
  change (2 ^ 32) with 4294967296 in H3. packs1. reflexivity.
Qed.

Section Meaning.
Variable A : Type.
Variable G : game A.
Variable tab : name -> option vdata.
Variable vinv : inv_table.
Variable subs : list (name * sub_ref).
Notation ev := (eval G any_reg tab subs).

Lemma u_read_user : forall var p m, var <> 123 ->
  u_read G any_reg true var p (user_of m) = let '(v, m') := read_direct G var p m in Some (v, user_of m').
Proof.
  intros var p m H. unfold u_read, read_direct, user_of, any_reg. destruct m as [t q a]. cbn [u_tmp u_prm u_aux u_vars tmp prm aux].
  destruct (var =? 26); [reflexivity|]. destruct (var =? 125); [reflexivity|]. destruct (var =? 124); [reflexivity|].
  destruct (var =? 126); [destruct (callproc G p _); reflexivity|]. destruct (var =? 123) eqn:E; [lia|reflexivity].
Qed.
Lemma u_read_user_i : forall var p m d, var <> 123 -> var <> 126 ->
  u_read G any_reg d var p (user_of m) = let '(v, m') := read_indirect G var p m in Some (v, user_of m').
Proof.
  intros var p m d H H'. unfold read_indirect. destruct (var =? 126) eqn:E; [lia|].
  rewrite <- u_read_user by assumption. unfold u_read. rewrite E. destruct d; reflexivity.
Qed.
Lemma read_rng : forall var p m v (m' : mst A), read_direct G var p m = (v, m') -> rng v.
Proof.
  intros var p m v m' H. unfold read_direct in H. destruct (var =? 26); [apply pair_inj in H as [<- <-]; unfold rng; lia|].
  destruct (var =? 125); [apply pair_inj in H as [<- <-]; apply u32_rng|]. destruct (var =? 124); [apply pair_inj in H as [<- <-]; apply u32_rng|].
  destruct (var =? 126); [destruct (callproc G p m); apply pair_inj in H as [<- <-]; apply u32_rng|]. apply pair_inj in H as [<- <-]; apply u32_rng.
Qed.

Lemma load0 : forall j last m, j_type j = 0 -> j_var j <> 123 ->
  load G j last m = let '(v, m') := read_direct G (j_var j) (j_param j) m in (Z.land (Z.shiftr v (j_shift j)) (j_mask j), m').
Proof.
  intros j last m H H'. unfold load. destruct (j_var j =? 123) eqn:E; [lia|]. rewrite H.
  change (0 =? 1) with false. change (0 =? 2) with false. reflexivity.
Qed.

Lemma node_simple : forall j acc, wf_j j -> instr_ok tab vinv j -> j_var j <> 123 ->
  exists nd, get_var_node (Some vinv) acc (j_var j) (opnd j) (j_shift j) (j_mask j) None = Some nd /\
    plain nd = true /\ is_simple nd = true /\ (const_load j = false -> forall v, nd <> NValue v) /\
    (forall m last v m', load G j last m = (v, m') -> ev nd (user_of m) = Some (v, user_of m') /\ rng v) /\
    (forall c, compile tab nd 0 4294967295 c = Some (true, enc_j j, c)).
Proof.
  intros j acc W K N.
  assert (Rl : forall m last v m', load G j last m = (v, m') -> rng v).
  { intros m last v m' H. rewrite load0 in H by (try apply K; assumption). destruct (read_direct _ _ _ _) as [v0 m0].
    apply pair_inj in H as [<- _]. apply mask_rng, W. }
  destruct K as [K0 _ _ Kn]. specialize (Kn) with (1 := N).
  unfold get_var_node. destruct (j_var j =? 123) eqn:E123; [lia|]. unfold var_node.
  pose proof (w_shift _ W) as Hs. pose proof (w_mask _ W) as Hm. pose proof (w_var _ W) as Hv. pose proof (w_param _ W) as Hp.
  unfold const_load, enc_j.
  destruct ((j_var j =? 26) && (j_shift j =? 0)) eqn:E1.
  { apply andb_true_iff in E1 as [Ev Es]. apply Z.eqb_eq in Ev, Es.
    exists (NValue (j_mask j)). do 3 (split; [reflexivity|]). split; [discriminate|]. split.
    - intros m last v m' H. split; [|now apply (Rl m last v m')]. rewrite load0 in H by assumption. rewrite Ev, Es in H.
      change (read_direct G 26 (j_param j) m) with (2 ^ 32 - 1, m) in H. cbv beta iota in H. apply pair_inj in H as [<- <-]. cbn [eval].
      rewrite Z.shiftr_0_r, Z.land_comm. change (2 ^ 32 - 1) with 4294967295. rewrite land_mask_id, u32_id by assumption. reflexivity.
    - intro c. cbn [compile]. change (0 <? 32) with true. change (4294967295 <=? 4294967295) with true. cbv iota.
      rewrite Z.land_comm, u32_land, u32_id by assumption. rewrite Ev, Es.
      unfold rng in Hm. change (2 ^ 32) with 4294967296 in Hm. cbn [concat_opt]. packs1. reflexivity. }
  assert (Full : forall v, rng v -> Z.land (Z.shiftr v 0) 4294967295 = v) by exact full_field.
  destruct ((j_var j =? 124) && (j_shift j =? 0) && (j_mask j =? 4294967295)) eqn:E2.
  { rewrite !andb_true_iff in E2. destruct E2 as [[Ev Es] Em]. apply Z.eqb_eq in Ev, Es, Em.
    unfold opnd. rewrite Ev. change (has_param 124) with true. cbv iota. cbn [bind].
    exists (NPerm (NValue (j_param j))). do 3 (split; [reflexivity|]). split; [discriminate|]. split.
    - intros m last v m' H. split; [|now apply (Rl m last v m')]. rewrite load0 in H by assumption. rewrite Ev, Es, Em in H. cbn [eval].
      rewrite u_read_user by lia. destruct (read_direct G 124 (j_param j) m) as [v0 m0] eqn:Er.
      rewrite Full in H by (eapply read_rng, Er). apply pair_inj in H as [<- <-]. reflexivity.
    - intro c. cbn [compile const_eval]. change (0 <? 32) with true. change (4294967295 <=? 4294967295) with true. cbv iota.
      rewrite pk_varp_ok by (try apply rng_M; lia). rewrite Es, Em. reflexivity. }
  destruct ((j_var j =? 125) && (j_shift j =? 0) && (j_mask j =? 4294967295)) eqn:E3.
  { rewrite !andb_true_iff in E3. destruct E3 as [[Ev Es] Em]. apply Z.eqb_eq in Ev, Es, Em.
    unfold opnd. rewrite Ev. change (has_param 125) with true. cbv iota. cbn [bind].
    exists (NTemp (NValue (j_param j))). do 3 (split; [reflexivity|]). split; [discriminate|]. split.
    - intros m last v m' H. split; [|now apply (Rl m last v m')]. rewrite load0 in H by assumption. rewrite Ev, Es, Em in H. cbn [eval].
      rewrite u_read_user by lia. destruct (read_direct G 125 (j_param j) m) as [v0 m0] eqn:Er.
      rewrite Full in H by (eapply read_rng, Er). apply pair_inj in H as [<- <-]. reflexivity.
    - intro c. cbn [compile const_eval]. change (0 <? 32) with true. change (4294967295 <=? 4294967295) with true. cbv iota.
      rewrite pk_varp_ok by (try apply rng_M; lia). rewrite Es, Em. reflexivity. }
  destruct ((j_var j =? 126) && (j_shift j =? 0) && (j_mask j =? 4294967295)) eqn:E4.
  { rewrite !andb_true_iff in E4. destruct E4 as [[Ev Es] Em]. apply Z.eqb_eq in Ev, Es, Em.
    unfold opnd. rewrite Ev. change (has_param 126) with true. cbv iota.
    exists (NCall (j_param j)). do 3 (split; [reflexivity|]). split; [discriminate|]. split.
    - intros m last v m' H. split; [|now apply (Rl m last v m')]. rewrite load0 in H by assumption. rewrite Ev, Es, Em in H. cbn [eval].
      rewrite u_read_user by lia. destruct (read_direct G 126 (j_param j) m) as [v0 m0] eqn:Er.
      rewrite Full in H by (eapply read_rng, Er). apply pair_inj in H as [<- <-]. reflexivity.
    - intro c. cbn [compile const_eval]. assert ((0 <=? j_param j) && (j_param j <? 256) = true) as -> by lia.
      change (0 <? 32) with true. change (4294967295 <=? 4294967295) with true. cbv iota.
      rewrite pk_varp_ok by (try apply rng_M; lia). rewrite Es, Em. reflexivity. }
  cbn [bind].
  assert (Sh : (j_shift j <? 32) = true) by lia. assert (Mk : (j_mask j <=? 4294967295) = true) by (unfold rng in Hm; lia).
  destruct (vinv (j_var j) (j_shift j) (j_mask j)) as [x|] eqn:Ex.
  - destruct (Kn x eq_refl) as [d [Dt [Dv [Ds [Dz [Dm Dp]]]]]].
    set (nd := match opnd j with None => NVar x | Some p => NVarP x p end).
    assert (Ec : forall s, ev nd s = ev (NVar x) s) by (intro; unfold nd; destruct (opnd j); reflexivity).
    exists nd. split; [unfold nd; destruct (opnd j); reflexivity|].
    split; [unfold nd, opnd; destruct (has_param (j_var j)); reflexivity|].
    split; [unfold nd; destruct (opnd j); reflexivity|].
    split; [intros _ v; unfold nd; destruct (opnd j); discriminate|].
    assert (Om : Z.ones (vd_size d) = j_mask j) by (rewrite Z.ones_equiv; lia).
    assert (Sz : Z.shiftl 1 (vd_size d) - 1 = j_mask j) by (rewrite Z.shiftl_mul_pow2 by assumption; lia).
    split.
    + intros m last v m' H. split; [|now apply (Rl m last v m')]. rewrite load0 in H by assumption. rewrite Ec. cbn [eval]. rewrite Dt, Dv, Ds, Om.
      assert (Ep : match vd_param d with Some p => p | None => 0 end = j_param j).
      { rewrite Dp. destruct (has_param (j_var j)) eqn:Hh; [reflexivity|]. symmetry. now apply W. }
      rewrite Ep, u_read_user by assumption. destruct (read_direct G (j_var j) (j_param j) m) as [v0 m0].
      apply pair_inj in H as [<- <-]. reflexivity.
    + intro c.
      assert (Cc : compile tab nd 0 4294967295 c = compile tab (NVar x) 0 4294967295 c) by (unfold nd; destruct (opnd j); reflexivity).
      rewrite Cc. cbn [compile]. rewrite Dt. rewrite Sz, u32_land, u32_id, Z.add_0_l, Ds, Dv by assumption.
      rewrite Sh, Mk. rewrite Dp. destruct (has_param (j_var j)).
      * rewrite pk_varp_ok by assumption. reflexivity.
      * rewrite pk_var_ok by assumption. reflexivity.
  - unfold opnd. destruct (has_param (j_var j)) eqn:Hh.
    + exists (NGenP (j_var j) (j_shift j) (j_mask j) None (NValue (j_param j))).
      assert (P255 : (j_param j <=? 255) = true) by lia.
      do 2 (split; [reflexivity|]). split; [exact P255|]. split; [discriminate|]. split.
      * intros m last v m' H. split; [|now apply (Rl m last v m')]. rewrite load0 in H by assumption. cbn [eval].
        rewrite P255, u_read_user by assumption. destruct (read_direct G (j_var j) (j_param j) m) as [v0 m0].
        apply pair_inj in H as [<- <-]. cbn [bind]. unfold field. cbn [fst snd]. rewrite u32_id by assumption. reflexivity.
      * intro c. cbn [compile const_eval]. rewrite u32_land, u32_id, Z.add_0_l, Sh, Mk by assumption.
        assert (255 <? j_param j = false) as -> by lia. rewrite pk_varp_ok by assumption. reflexivity.
    + exists (NGen (j_var j) (j_shift j) (j_mask j) None).
      do 3 (split; [reflexivity|]). split; [discriminate|]. split.
      * intros m last v m' H. split; [|now apply (Rl m last v m')]. rewrite load0 in H by assumption. cbn [eval].
        rewrite (w_param0 _ W Hh) in H.
        rewrite u_read_user by assumption. destruct (read_direct G (j_var j) 0 m) as [v0 m0].
        apply pair_inj in H as [<- <-]. cbn [bind]. unfold field. cbn [fst snd]. rewrite u32_id by assumption. reflexivity.
      * intro c. cbn [compile const_eval]. rewrite u32_land, u32_id, Z.add_0_l, Sh, Mk by assumption.
        rewrite pk_var_ok by assumption. reflexivity.
Qed.

(** An instruction through 7B, with the accumulator as parameter. *)
Lemma node_7b : forall j acc, wf_j j -> instr_ok tab vinv j -> j_var j = 123 -> (forall v, acc <> NValue v) ->
  plain acc = true ->
  exists nd, get_var_node (Some vinv) (Some acc) (j_var j) (opnd j) (j_shift j) (j_mask j) None = Some nd /\
    plain nd = true /\ (forall v, nd <> NValue v) /\
    (forall s v m v' m', ev acc s = Some (v, user_of m) -> load G j v m = (v', m') ->
       ev nd s = Some (v', user_of m') /\ rng v') /\
    (forall c isv code, compile tab acc 0 4294967295 c = Some (isv, code, c) ->
       exists isv', compile tab nd 0 4294967295 c = Some (isv', code ++ 15 :: enc_j j, c)).
Proof.
  intros j acc W K Ev N P. destruct K as [K0 _ K7 _]. destruct (K7 Ev) as [_ [K1 K2]]. cbn [In] in K1.
  pose proof (w_shift _ W) as Hs. pose proof (w_mask _ W) as Hm. pose proof (w_param _ W) as Hp.
  set (p := j_param j) in *.
  assert (Ld : forall v m v' m', load G j v m = (v', m') -> rng v' /\
     exists v0, read_indirect G p v m = (v0, m') /\ v' = Z.land (Z.shiftr v0 (j_shift j)) (j_mask j) /\ rng v0).
  { intros v m v' m' H. unfold load in H. rewrite Ev, K0 in H. change (123 =? 123) with true in H.
    change (0 =? 1) with false in H. change (0 =? 2) with false in H. cbv iota in H. fold p in H.
    destruct (read_indirect G p v m) as [v0 m0] eqn:Er. apply pair_inj in H as [<- <-].
    split; [now apply mask_rng|]. exists v0. split; [reflexivity|]. split; [reflexivity|].
    unfold read_indirect in Er. destruct (p =? 126); [apply pair_inj in Er as [<- <-]; apply u32_rng|]. eapply read_rng, Er. }
  assert (Ec : const_eval acc = None) by (destruct acc; try reflexivity; exfalso; now apply (N v)).
  assert (E7 : get_var_node (Some vinv) (Some acc) (j_var j) (opnd j) (j_shift j) (j_mask j) None =
     var_node (Some vinv) p (Some acc) (j_shift j) (j_mask j)).
  { unfold get_var_node, opnd. rewrite Ev. change (123 =? 123) with true. change (has_param 123) with true. cbv iota.
    fold p. destruct (p =? 123) eqn:E; [lia|reflexivity]. }
  rewrite E7. unfold var_node. assert (E26 : p =? 26 = false) by lia. rewrite E26. cbn [andb].
  assert (E126 : p =? 126 = false) by lia. 
  assert (Ind : forall T (f : Z -> T) (g : T), match acc with NValue v => f v | _ => g end = g)
    by (intros; now apply not_val).
  unfold enc_j. rewrite Ev. change (has_param 123) with true. cbv iota. fold p. cbn [app].
  destruct ((p =? 124) && (j_shift j =? 0) && (j_mask j =? 4294967295)) eqn:E2.
  { rewrite !andb_true_iff in E2. destruct E2 as [[Evp Es] Em]. apply Z.eqb_eq in Evp, Es, Em. cbn [bind].
    exists (NPerm acc). split; [reflexivity|]. split; [exact P|]. split; [discriminate|]. split.
    - intros s v m v' m' Ha L. destruct (Ld _ _ _ _ L) as [Rv [v0 [Er [-> R0]]]]. split; [|assumption].
      transitivity (do (v, s) <- ev acc s; u_read G any_reg false 124 v s); [cbn [eval]; apply Ind|].
      rewrite Ha. cbn [bind]. rewrite u_read_user_i by lia. rewrite Evp in Er. rewrite Er, Es, Em, full_field by assumption. reflexivity.
    - intros c isv code Hc. cbn [compile]. rewrite Ec, Hc. change (0 <? 32) with true. change (4294967295 <=? 4294967295) with true. cbv iota.
      cbn [bind concat_opt]. rewrite pk_varp_ok by (try apply rng_M; lia). unfold OP_INIT. rewrite pack_B_ok by lia. cbn [bind].
      exists false. rewrite Evp, Es, Em. reflexivity. }
  destruct ((p =? 125) && (j_shift j =? 0) && (j_mask j =? 4294967295)) eqn:E3.
  { rewrite !andb_true_iff in E3. destruct E3 as [[Evp Es] Em]. apply Z.eqb_eq in Evp, Es, Em. cbn [bind].
    exists (NTemp acc). split; [reflexivity|]. split; [exact P|]. split; [discriminate|]. split.
    - intros s v m v' m' Ha L. destruct (Ld _ _ _ _ L) as [Rv [v0 [Er [-> R0]]]]. split; [|assumption].
      transitivity (do (v, s) <- ev acc s; u_read G any_reg false 125 v s); [cbn [eval]; apply Ind|].
      rewrite Ha. cbn [bind]. rewrite u_read_user_i by lia. rewrite Evp in Er. rewrite Er, Es, Em, full_field by assumption. reflexivity.
    - intros c isv code Hc. cbn [compile]. rewrite Ec, Hc. change (0 <? 32) with true. change (4294967295 <=? 4294967295) with true. cbv iota.
      cbn [bind concat_opt]. rewrite pk_varp_ok by (try apply rng_M; lia). unfold OP_INIT. rewrite pack_B_ok by lia. cbn [bind].
      exists false. rewrite Evp, Es, Em. reflexivity. }
  rewrite E126. cbn [andb bind]. rewrite K2.
  assert (Sh : (j_shift j <? 32) = true) by lia. assert (Mk : (j_mask j <=? 4294967295) = true) by (unfold rng in Hm; lia).
  exists (NGenP p (j_shift j) (j_mask j) None acc). split; [reflexivity|]. split; [exact P|]. split; [discriminate|]. split.
  - intros s v m v' m' Ha L. destruct (Ld _ _ _ _ L) as [Rv [v0 [Er [-> R0]]]]. split; [|assumption].
    transitivity (do (v, s) <- ev acc s; do r <- u_read G any_reg false p v s; Some (field (j_shift j) (u32 (j_mask j)) r));
      [cbn [eval]; apply Ind|].
    rewrite Ha. cbn [bind]. rewrite u_read_user_i by lia. rewrite Er. cbn [bind]. unfold field. cbn [fst snd].
    rewrite u32_id by assumption. reflexivity.
  - intros c isv code Hc. cbn [compile]. rewrite Ec. rewrite u32_land, u32_id, Z.add_0_l, Sh, Mk by assumption. rewrite Hc.
    cbn [bind concat_opt]. rewrite pk_varp_ok by (try assumption; lia). unfold OP_INIT. rewrite pack_B_ok by lia. cbn [bind].
    exists true. reflexivity.
Qed.

Definition compile_from (c : ctx) (l : list node) : option bytes :=
  match l with
  | [] => None
  | e :: l => do (_, code, c) <- compile tab e 0 4294967295 c; do rest <- compile_rest tab l c; Some (code ++ rest)
  end.

Lemma apply_xarith : forall op a b (m : mst A), 0 <= op <= 22 -> op <> 14 -> op <> 15 -> op <> 16 ->
  exists r, xarith op a b = Some r /\ apply_op op a b m = (r, m) /\ rng r.
Proof.
  intros op a b m H H1 H2 H3. unfold apply_op. destruct (op =? 14) eqn:E; [lia|]. destruct (op =? 16) eqn:E'; [lia|].
  assert (X : xarith op a b = arith op a b) by (destruct op; [reflexivity|reflexivity|lia]). rewrite X.
  assert (Y : exists r, arith op a b = Some r).
  { assert (C : op = 0 \/ op = 1 \/ op = 2 \/ op = 3 \/ op = 4 \/ op = 5 \/ op = 6 \/ op = 7 \/ op = 8 \/ op = 9 \/ op = 10 \/
      op = 11 \/ op = 12 \/ op = 13 \/ op = 17 \/ op = 18 \/ op = 19 \/ op = 20 \/ op = 21 \/ op = 22) by lia.
    repeat (destruct C as [->|C]; [eexists; reflexivity|]). subst. eexists; reflexivity. }
  destruct Y as [r Y]. rewrite Y. exists r. split; [reflexivity|]. split; [reflexivity|]. eapply arith_rng, Y.
Qed.

Lemma build_ok : forall l code acc lone, clean_rest tab vinv lone l -> Forall wf_j l ->
  (lone = false -> forall v, acc <> NValue v) -> plain acc = true ->
  exists e es, build (Some vinv) code (Some acc) l = Some (code ++ e :: es) /\ Forall (fun e => plain e = true) (e :: es) /\
   (forall s v m, ev acc s = Some (v, user_of m) -> rng v ->
      eval_lines G any_reg tab subs (e :: es) 0 s = let '(v', m') := exec_all G l (v, m) in Some (v', user_of m')) /\
   (forall c isv cacc, compile tab acc 0 4294967295 c = Some (isv, cacc, c) ->
      compile_from c (e :: es) = Some (cacc ++ enc_tail l)).
Proof.
  induction l as [|j l IH]; intros code acc lone C W N P; cbn [build].
  - cbn [bind]. exists acc, []. split; [reflexivity|]. split; [auto|]. split.
    + intros s v m H R. cbn [eval_lines exec_all]. rewrite H. reflexivity.
    + intros c isv cacc H. cbn [compile_from compile_rest]. rewrite H. reflexivity.
  - cbn [clean_rest] in C. destruct C as [K [L C]]. inversion W as [|? ? Wj Wl]; subst.
    destruct (Z.eq_dec (j_var j) 123) as [E7|N7].
    + destruct (io_7b _ _ _ K E7) as [O15 _].
      destruct (node_7b j acc Wj K E7 (N (L E7)) P) as [nd [E [Pn [Nn [Sem Cmp]]]]].
      rewrite E. cbn [bind]. rewrite O15. change (15 =? OP_INIT) with true. cbv iota.
      rewrite E7. change (negb (123 =? 123)) with false. cbv iota.
      destruct (IH code nd _ C Wl) as [e [es [B [Pl [Sl Cl]]]]]; auto.
      exists e, es. split; [assumption|]. split; [assumption|]. split.
      * intros s v m H R. cbn [exec_all]. unfold exec. cbn [fst snd].
        destruct (load G j v m) as [v' m'] eqn:Ld. destruct (Sem s v m v' m' H Ld) as [Sn Rn].
        rewrite (Sl s v' m' Sn Rn). rewrite O15.
        change (apply_op 15 v v' m') with (v', m'). reflexivity.
      * intros c isv cacc H. destruct (Cmp c isv cacc H) as [isv' H']. rewrite (Cl c isv' _ H').
        unfold enc_tail. cbn [map concat]. rewrite O15. rewrite <- app_assoc. reflexivity.
    + destruct (node_simple j (Some acc) Wj K N7) as [nd [E [Pn [Sn [Nn [Sem Cmp]]]]]].
      rewrite E. cbn [bind]. destruct (j_op j =? OP_INIT) eqn:EO.
      * unfold OP_INIT in EO. assert (negb (j_var j =? 123) = true) as -> by lia. 
        assert (Nn' : (j_op j =? 15) && const_load j = false -> forall v, nd <> NValue v).
        { rewrite EO. cbn [andb]. exact Nn. }
        destruct (IH (code ++ [acc]) nd _ C Wl Nn' Pn) as [e [es [B [Pl [Sl Cl]]]]].
        exists acc, (e :: es). split; [rewrite B, <- app_assoc; reflexivity|]. split; [now constructor|]. split.
        -- intros s v m H R. cbn [exec_all]. unfold exec. cbn [fst snd].
           destruct (load G j v m) as [v' m'] eqn:Ld. destruct (Sem m v v' m' Ld) as [S1 Rn].
           specialize (Sl (user_of m) v' m' S1 Rn). apply Z.eqb_eq in EO. rewrite EO.
           change (apply_op 15 v v' m') with (v', m').
           transitivity (eval_lines G any_reg tab subs (e :: es) v (user_of m)).
           ++ cbn [eval_lines]. rewrite H. reflexivity.
           ++ exact Sl.
        -- intros c isv cacc H. specialize (Cl c true (enc_j j) (Cmp c)). cbn [compile_from] in Cl |- *. rewrite H. cbn [bind].
           cbn [compile_rest].
           apply bind_some in Cl as [[[i1 c1] x1] [Q1 Cl]]. cbv beta iota in Cl. apply bind_some in Cl as [rs [Q2 Cl]].
           cbv beta in Cl. apply some_inj in Cl. rewrite Q1. cbn [bind]. rewrite Q2. cbn [bind].
           unfold enc_tail. cbn [map concat]. apply Z.eqb_eq in EO. rewrite EO. unfold OP_INIT. rewrite Cl. reflexivity.
      * assert (Pe : plain (NExpr (j_op j) acc nd) = true).
        { cbn [plain]. pose proof (io_op _ _ _ K). rewrite P, Pn. lia. }
        destruct (IH code (NExpr (j_op j) acc nd) _ C Wl) as [e [es [B [Pl [Sl Cl]]]]]; [discriminate|assumption|].
        exists e, es. split; [assumption|]. split; [assumption|]. split.
        -- intros s v m H R. cbn [exec_all]. unfold exec. cbn [fst snd].
           destruct (load G j v m) as [v' m'] eqn:Ld. destruct (Sem m v v' m' Ld) as [S1 Rn].
           assert (Op : exists r m2, apply_op (j_op j) v v' m' = (r, m2) /\ rng r /\
                     ev (NExpr (j_op j) acc nd) s = Some (r, user_of m2)).
           { cbn [eval]. rewrite Sn, H. cbn [bind]. rewrite S1. cbn [bind]. unfold OP_INIT in EO.
             destruct (j_op j =? 14) eqn:E14.
             - exists v, (mkM (fset (tmp m') v' v) (prm m') (aux m')). unfold apply_op. rewrite E14. auto.
             - destruct (j_op j =? 16) eqn:E16.
               + exists v, (mkM (tmp m') (fset (prm m') v' v) (aux m')). unfold apply_op. rewrite E14, E16. auto.
               + destruct (apply_xarith (j_op j) v v' m') as [r [X [Y Rr]]]; try lia; [apply K|].
                 exists r, m'. rewrite X, Y. auto. }
           destruct Op as [r [m2 [Op [Rr Ee]]]]. rewrite Op. apply Sl; assumption.
        -- intros c isv cacc H. rewrite (Cl c false (cacc ++ [j_op j] ++ enc_j j)).
           ++ unfold enc_tail. cbn [map concat]. rewrite <- !app_assoc. reflexivity.
           ++ cbn [compile]. rewrite (Cmp c). cbn [bind]. rewrite H. cbn [bind].
              unfold mk_bytes, bytesb. cbn [forallb]. unfold byteb. pose proof (io_op _ _ _ K).
              assert ((0 <=? j_op j) && (j_op j <? 256) && true = true) as -> by lia. reflexivity.
Qed.
End Meaning.

(** ** Ranges *)
Definition to_range (r : Z * Z * Z) : srange := let '(g, lo, hi) := r in mkRange lo hi (RRef g).
Definition enc_range (r : Z * Z * Z) : bytes := let '(g, lo, hi) := r in [g mod 256; g / 256] ++ le4 lo ++ le4 hi.

Lemma ranges_inv : forall n d rs r, rd_n rd_range n d = Some (rs, r) -> bytesb d = true ->
  rd_n (rd_srange 2) n d = Some (map to_range rs, r) /\ d = concat (map enc_range rs) ++ r /\ bytesb r = true /\
  length rs = n /\ Forall (fun x => let '(g, lo, hi) := x in 0 <= g < 65536 /\ rng lo /\ rng hi) rs.
Proof.
  induction n as [|n IH]; intros d rs r H B; cbn [rd_n] in H |- *.
  - injection H as <- <-. auto 10.
  - apply bind_some in H as [[x d1] [H1 H]]. cbv beta iota in H.
    apply bind_some in H as [[xs d2] [H2 H]]. cbv beta iota in H. apply some_inj in H; apply pair_inj in H as [<- <-].
    unfold rd_range in H1. apply bind_some in H1 as [[g e1] [G1 H1]]. cbv beta iota in H1.
    apply bind_some in H1 as [[lo e2] [G2 H1]]. cbv beta iota in H1.
    apply bind_some in H1 as [[hi e3] [G3 H1]]. cbv beta iota in H1. apply some_inj in H1; apply pair_inj in H1 as [<- <-].
    unfold rd_srange at 1. rewrite G1. cbn [bind].
    pose proof G1 as G1'. apply rd_H_inv in G1' as [Ed [Rg B1]]; [|assumption].
    pose proof G2 as G2'. apply rd_I_inv in G2' as [Ed2 [Rlo B2]]; [|assumption].
    pose proof G3 as G3'. apply rd_I_inv in G3' as [Ed3 [Rhi B3]]; [|assumption].
    unfold rd_var at 1. change (2 =? 0) with false. change (2 =? 1) with false. change (2 =? 2) with true. cbv iota.
    rewrite G2. cbn [bind]. unfold rd_var at 1. change (2 =? 0) with false. change (2 =? 1) with false. change (2 =? 2) with true. cbv iota.
    rewrite G3. cbn [bind]. destruct (IH e3 xs d2 H2 B3) as [I1 [I2 [I3 [I4 I5]]]]. rewrite I1. cbn [bind].
    split; [reflexivity|]. split; [|split; [assumption|split; [cbn [length]; now rewrite I4|constructor; auto]]].
    rewrite Ed, Ed2, Ed3, I2. cbn [map concat enc_range]. rewrite <- !app_assoc. reflexivity.
Qed.

Lemma range_data_unsigned : forall g lo hi, 0 <= g < 65536 -> 0 <= lo < 2147483648 -> 0 <= hi < 2147483648 ->
  range_data (to_range (g, lo, hi)) = Some (enc_range (g, lo, hi)).
Proof.
  intros g lo hi H1 H2 H3. unfold range_data, to_range, enc_range. cbn [r_low r_high r_ref get_ref_id].
  assert ((lo <? 0) && (0 <=? hi) = false) as -> by lia. cbn [concat_opt]. rewrite pack_H_ok by lia. cbn [bind].
  unfold pack_i. assert ((-2147483648 <=? lo) && (lo <? 2147483648) = true) as -> by lia.
  assert ((-2147483648 <=? hi) && (hi <? 2147483648) = true) as -> by lia.
  rewrite (Z.mod_small lo), (Z.mod_small hi) by lia. rewrite !pack_I_ok by lia. reflexivity.
Qed.

Lemma ranges_data_unsigned : forall rs,
  Forall (fun x => let '(g, lo, hi) := x in 0 <= g < 65536 /\ 0 <= lo < 2147483648 /\ 0 <= hi < 2147483648) rs ->
  concat_opt (map range_data (map to_range rs)) = Some (concat (map enc_range rs)) /\
  length (concat (map enc_range rs)) = (10 * length rs)%nat.
Proof.
  induction rs as [|[[g lo] hi] rs IH]; intro F; [split; reflexivity|].
  inversion F as [|? ? R Fr]; subst. cbv beta iota in R. destruct R as [R1 [R2 R3]]. destruct (IH Fr) as [I1 I2].
  cbn [map concat_opt concat]. rewrite range_data_unsigned by assumption. cbn [bind]. rewrite I1. split; [reflexivity|].
  rewrite app_length, I2. cbn [enc_range app le4 length]. lia.
Qed.

Theorem decode_good : forall (A : Type) (G : game A) tab vinvs vinv d g, bytesb d = true -> game_parse (2 :: d) = Some g ->
  0 <= g_feature g <= 20 -> vinvs (g_feature g) = Some vinv -> clean tab vinv (g_adjusts g) ->
  exists sw, decode_switch vinvs d = Some sw /\
    sw_feature sw = g_feature g /\ sw_ref_id sw = g_id g /\ sw_related sw = g_related g /\ sw_subs sw = [] /\
    sw_ranges sw = map (fun r => let '(grp, lo, hi) := r in mkRange lo hi (RRef grp)) (g_ranges g) /\
    sw_default sw = RRef (g_default g) /\
    (forall m, eval_lines G any_reg tab [] (sw_lines sw) 0 (user_of m) =
       let '(v, m') := game_value G g m in Some (v, user_of m')) /\
    (Forall (fun r => let '(_, lo, hi) := r in lo < 2 ^ 31 /\ hi < 2 ^ 31) (g_ranges g) ->
     switch_data tab (mkSwitch (sw_feature sw) (sw_ref_id sw) (sw_related sw) (sw_subs sw)
       (map lower (sw_lines sw)) (sw_ranges sw) (sw_default sw)) = Some (2 :: d)).
Proof.
  intros A G tab vinvs vinv d g B H F V C. unfold game_parse in H. rewrite rd_B_cons in H. cbn [bind] in H.
  change (2 =? 2) with true in H. cbv iota in H.
  apply bind_some in H as [[f d1] [H1 H]]. cbv beta iota in H.
  apply bind_some in H as [[id d2] [H2 H]]. cbv beta iota in H.
  apply bind_some in H as [[ty d3] [H3 H]]. cbv beta iota in H.
  destruct ((ty =? 137) || (ty =? 138)) eqn:Ty; [|discriminate].
  apply bind_some in H as [[l d4] [H4 H]]. cbv beta iota in H.
  apply bind_some in H as [[n d5] [H5 H]]. cbv beta iota in H.
  apply bind_some in H as [[rs d6] [H6 H]]. cbv beta iota in H.
  apply bind_some in H as [[df d7] [H7 H]]. cbv beta iota in H.
  destruct d7; [|discriminate]. apply some_inj in H. subst g. cbn [g_feature g_id g_related g_adjusts g_ranges g_default] in *.
  pose proof H1 as H1'. apply rd_B_inv in H1' as [Ed [Rf B1]]; [|assumption].
  pose proof H2 as H2'. apply rd_B_inv in H2' as [Ed1 [Rid B2]]; [|assumption].
  pose proof H3 as H3'. apply rd_B_inv in H3' as [Ed2 [Rty B3]]; [|assumption].
  assert (Z0 : all0 l).
  { assert (Q : forall l lone, clean_rest tab vinv lone l -> all0 l).
    { clear. induction l as [|j l IH]; intros lone Q; [constructor|]. destruct Q as [K [_ Q]].
      constructor; [apply K|eapply IH, Q]. }
    destruct l as [|j l]; [constructor|]. destruct C as [K [_ C]]. constructor; [apply K|eapply Q, C]. }
  destruct (dec_parse (length d3) (Some vinv) [] None d3 l d4 B3 H4 Z0) as [D [j [l' [El [Wj [Wl [B4 [J0 Ed3]]]]]]]].
  specialize (J0 eq_refl). cbn [is_none app] in Ed3. subst l. destruct C as [K [N7 C]].
  destruct (node_simple A G tab vinv [] j None Wj K N7) as [nd [En [Pn [Sn [Nn [Sem Cmp]]]]]].
  destruct (build_ok A G tab vinv [] l' [] nd _ C Wl Nn Pn) as [e [es [Bd [Pl [Sl Cl]]]]].
  assert (D' : dec_loop (length d3) (Some vinv) 2 [] None d3 = Some (e :: es, d4)).
  { rewrite D. cbn [build]. rewrite En. cbn [bind]. rewrite Bd. reflexivity. }
  pose proof H5 as H5'. apply rd_B_inv in H5' as [Ed4 [Rn B5]]; [|assumption].
  destruct (ranges_inv _ _ _ _ H6 B5) as [I1 [I2 [I3 [I4 I5]]]].
  pose proof H7 as H7'. apply rd_H_inv in H7' as [Ed6 [Rdf _]]; [|assumption].
  exists (mkSwitch f id (ty =? 138) [] (map simplify (e :: es)) (map to_range rs) (RRef df)).
  split.
  { unfold decode_switch. rewrite H1. cbn [bind]. rewrite feature_ok by assumption. cbn [bind]. rewrite H2. cbn [bind]. rewrite H3. cbn [bind].
    assert (T : ty = 137 \/ ty = 138) by lia.
    assert (memz ty [129; 130; 133; 134; 137; 138] = true) as -> by (destruct T as [->| ->]; reflexivity).
    assert (Z.land (Z.shiftr ty 2) 3 = 2) as -> by (destruct T as [->| ->]; reflexivity).
    assert (negb (Z.land ty 2 =? 0) = (ty =? 138)) as -> by (destruct T as [->| ->]; reflexivity).
    rewrite V, D'. cbn [bind]. rewrite H5. cbn [bind]. rewrite I1. cbn [bind]. rewrite H7. reflexivity. }
  cbn [sw_feature sw_ref_id sw_related sw_subs sw_ranges sw_default sw_lines].
  do 6 (split; [reflexivity|]). split.
  - intro m. unfold game_value. cbn [g_adjusts exec_all]. unfold exec. cbn [fst snd].
    destruct (load G j 0 m) as [v m'] eqn:Ld. destruct (Sem m 0 v m' Ld) as [S1 Rv].
    rewrite J0. assert (E0 : apply_op 0 0 v m' = (v, m')).
    { unfold apply_op. change (0 =? 14) with false. change (0 =? 16) with false. cbv iota. cbn [arith].
      now rewrite Z.add_0_l, u32_id. }
    rewrite E0. rewrite <- (Sl (user_of m) v m' S1 Rv).
    assert (Q : forall l v s, eval_lines G any_reg tab [] (map simplify l) v s = eval_lines G any_reg tab [] l v s).
    { clear. induction l as [|a l IH]; intros v s; [reflexivity|]. cbn [map eval_lines]. unfold simplify at 1.
      rewrite simplify_f_ev. destruct (eval G any_reg tab [] a s) as [[v' s']|]; [apply IH|reflexivity]. }
    apply Q.
  - intro Fr. unfold switch_data. cbn [sw_feature sw_ref_id sw_related sw_subs sw_lines sw_ranges sw_default].
    assert (Lw : map lower (map simplify (e :: es)) = e :: es).
    { assert (Q : forall l, Forall (fun e => plain e = true) l -> map lower (map simplify l) = l).
      { clear. induction 1; [reflexivity|]. cbn [map]. unfold simplify at 1. rewrite lower_simplify_f by assumption. now f_equal. }
      now apply Q. }
    rewrite Lw. unfold mk_bytes at 1. unfold bytesb. cbn [forallb]. unfold byteb.
    assert (T : ty = 137 \/ ty = 138) by lia.
    assert (Et : (if ty =? 138 then 138 else 137) = ty) by (destruct T as [->| ->]; reflexivity). rewrite Et.
    assert ((0 <=? 2) && (2 <? 256) && ((0 <=? f) && (f <? 256) && ((0 <=? id) && (id <? 256) && ((0 <=? ty) && (ty <? 256) && true))) = true) as -> by lia.
    cbn [bind].
    specialize (Cl (ctx_init 128 []) true (enc_j j) (Cmp _)).
    change (compile_lines tab [] (e :: es)) with (compile_from tab (ctx_init 128 []) (e :: es)). rewrite Cl. cbn [bind].
    pose proof (mark_seq l' j [] Wj Wl) as Mk. unfold enc_seq in Mk. cbn [app] in Mk. rewrite Mk. cbn [bind].
    assert (Fr' : Forall (fun x => let '(g, lo, hi) := x in 0 <= g < 65536 /\ 0 <= lo < 2147483648 /\ 0 <= hi < 2147483648) rs).
    { clear - Fr I5. induction rs as [|[[g lo] hi] rs IH]; [constructor|]. inversion Fr as [|? ? Qa ?]; subst. cbv beta iota in Qa.
      inversion I5 as [|? ? Qb ?]; subst. cbv beta iota in Qb. destruct Qa as [Q1 Q2]. destruct Qb as [Q3 [Q4 Q5]]. unfold rng in *. constructor; [|auto].
      change (2 ^ 31) with 2147483648 in *. lia. }
    destruct (ranges_data_unsigned rs Fr') as [Rd Rl]. rewrite Rd. cbn [bind].
    assert (Ln : len (concat (map enc_range rs)) / 10 = n).
    { unfold len. rewrite Rl, I4. lia. }
    rewrite Ln. unfold mk_bytes, bytesb. cbn [forallb]. unfold byteb. assert ((0 <=? n) && (n <? 256) && true = true) as -> by lia.
    cbn [bind get_ref_id]. rewrite pack_H_ok by lia. cbn [bind].
    rewrite Ed, Ed1, Ed2, Ed3, Ed4, I2, Ed6, app_nil_r. cbn [app]. reflexivity.
Qed.
