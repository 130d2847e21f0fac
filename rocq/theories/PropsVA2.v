(** Theorems for C10, C11, C21, C22, C23: VarAction2 switches. *)
From Coq Require Import ZArith List Bool Lia ZifyBool String.
From Verif Require Import Base BaseFacts CommonModel RecordsModel Action14Model VA2Model SpecVA2 VA2Proofs VA2Compile
  VA2Switch VA2Simplify VA2DecodeModel SpecVA2Decode VA2Decode VA2Total VA2Vars.
Import ListNotations.
Open Scope Z_scope.

(** ** C21: what the game computes from a switch is what the code says.
    Full statement: for every switch the encoder accepts.  Missing: code
    excluded by [supported] (each exclusion has a refuted statement below) and
    procedures that use the compiler's registers. *)
Theorem C21_switch_computes_code_partial : forall (A : Type) (G : game A) tab sw d, calls_clean G ->
  Forall (fun e => supported tab e = true) (sw_lines sw) -> switch_data tab sw = Some d ->
  exists g, game_parse d = Some g /\ g_feature g = sw_feature sw /\ g_id g = sw_ref_id sw /\
    g_related g = sw_related sw /\
    forall m v s', eval_lines G user_reg tab (sw_subs sw) (sw_lines sw) 0 (mkU (tmp m) (prm m) [] (aux m)) = Some (v, s') ->
     exists m', game_value G g m = (v, m') /\
      (forall r, user_reg r = true -> tmp m' r = u_tmp s' r) /\ (forall r, prm m' r = u_prm s' r) /\ aux m' = u_aux s'.
Proof.
  intros A G tab sw d C F H. destruct (switch_good A G C tab sw d F H) as [g [P [H1 [H2 [H3 [_ [E _]]]]]]].
  exists g. do 4 (split; [assumption|]). intros m v s' X. destruct (E m v s' X) as [m' [Y [_ Z]]]. eauto.
Qed.

(** Compilation succeeds: 128 registers, one per assigned name and one per
    intermediate result alive at once. *)
Theorem C21_compiles : forall tab sw ns, Forall (fun e => supported tab e = true) (sw_lines sw) ->
  switch_accepted tab sw ns -> exists d, switch_data tab sw = Some d.
Proof. exact switch_total. Qed.

(** The tables shipped with the library: every entry fits, and every entry
    whose variable takes no parameter byte (and tile_height) is [supported]. *)
Theorem C21_tables : forall f tab x d, va2_vars f = Some tab -> tab x = Some d ->
  vd_fits d = true /\ (has_param (vd_var d) = false -> vd_ok d = true).
Proof.
  assert (C : forallb (fun ft => forallb (fun kv : name * vdata =>
     vd_fits (snd kv) && (has_param (vd_var (snd kv)) || vd_ok (snd kv))) (snd ft)) VA2_VARS = true) by (vm_compute; reflexivity).
  assert (Dg : forall {V} (l : list (name * V)) x v, dict_get bytes_eqb l x = Some v -> exists y, In (y, v) l).
  { induction l as [|[k w] l IH]; intros x v H; cbn [dict_get] in H; [discriminate|].
    destruct (bytes_eqb x k); [injection H as ->; exists k; now left|]. destruct (IH x v H) as [y Hy]. exists y; now right. }
  assert (Dz : forall {V} (l : list (Z * V)) x v, dict_get Z.eqb l x = Some v -> exists y, In (y, v) l).
  { induction l as [|[k w] l IH]; intros x v H; cbn [dict_get] in H; [discriminate|].
    destruct (x =? k); [injection H as ->; exists k; now left|]. destruct (IH x v H) as [y Hy]. exists y; now right. }
  intros f tab x d H T. unfold va2_vars in H. apply bind_some in H as [t [Ht H]]. cbv beta in H. apply some_inj in H. subst tab.
  apply Dz in Ht as [y Ht]. apply Dg in T as [z T].
  rewrite forallb_forall in C. specialize (C _ Ht). rewrite forallb_forall in C. specialize (C _ T). cbn [snd] in C.
  apply andb_prop in C as [C1 C2]. split; [assumption|]. intro N. rewrite N in C2. exact C2.
Qed.

(** A concrete switch: train code with a named variable, an intermediate
    result, a store and a comparison. *)
Definition ex_tab : name -> option vdata := match va2_vars 0 with Some t => t | None => fun _ => None end.
Definition ex_x : name := nm "x".
Definition ex_switch : switch := mkSwitch 0 17 false []
  [NAssign ex_x (NExpr 10 (NVar (nm "position_in_consist")) (NValue 3));
   NExpr 14 (NExpr 0 (NTemp (NValue 4)) (NExpr 1 (NVar ex_x) (NPerm (NVar ex_x)))) (NValue 9);
   mk_binop OPE_GE (NTemp (NValue 9)) (NValue 100)]
  [mkRange (-2) 0 (RRef 5); mkRange 1 1 (RRef 6)] (RRef 7).
Example C21_example : Forall (fun e => supported ex_tab e = true) (sw_lines ex_switch) /\
  switch_accepted ex_tab ex_switch [ex_x].
Proof.
  split; [repeat constructor|]. unfold switch_accepted. cbn [ex_switch sw_feature sw_ref_id sw_ranges sw_default get_ref_id].
  split; [lia|]. split; [lia|]. split; [discriminate|]. split; [reflexivity|]. split; [|split; [|split; [|split]]].
  - change (assigned_lines (sw_lines ex_switch)) with [ex_x]. apply incl_refl.
  - repeat constructor; cbn; lia.
  - repeat constructor; unfold range_ok; cbn; lia.
  - cbn. lia.
  - lia.
Qed.
Definition ex_game : game unit := mkGame (fun _ var p => var + 2 * p) (fun _ m => (0, m)).
Example C21_example_runs : calls_clean ex_game /\
  (exists d g, switch_data ex_tab ex_switch = Some d /\ game_parse d = Some g /\
   fst (game_value ex_game g (mkM (fun r => r) (fun r => 10 * r) tt)) = 0 /\
   tmp (snd (game_value ex_game g (mkM (fun r => r) (fun r => 10 * r) tt))) 9 = 2 ^ 32 + 4 - 9 * (64 * 3)) /\
  exists s', eval_lines ex_game user_reg ex_tab [] (sw_lines ex_switch) 0 (mkU (fun r => r) (fun r => 10 * r) [] tt) = Some (0, s').
Proof.
  split; [intros n m1 m2 H; cbn; auto|]. split.
  - eexists _, _. split; [vm_compute; reflexivity|]. split; [vm_compute; reflexivity|]. split; vm_compute; reflexivity.
  - eexists. vm_compute. reflexivity.
Qed.

(** *** Why the restrictions: each is false without it. *)
(** A right operand whose parameter is computed, or is above 255, overwrites
    the left operand: [5 + var(0x60, param=300)] loses the 5. *)
Definition one_line (e : node) : switch := mkSwitch 0 0 false [] [e] [] (RRef 0).
Definition m0 : mst unit := mkM (fun _ => 0) (fun _ => 0) tt.
Theorem C21_computed_operand_refuted : exists e d g v s',
  switch_data ex_tab (one_line e) = Some d /\ game_parse d = Some g /\
  eval_lines ex_game user_reg ex_tab [] [e] 0 (mkU (tmp m0) (prm m0) [] tt) = Some (v, s') /\
  fst (game_value ex_game g m0) <> v.
Proof.
  exists (NExpr 0 (NValue 5) (NGenP 96 0 255 None (NValue 300))). do 4 eexists.
  split; [vm_compute; reflexivity|]. split; [vm_compute; reflexivity|]. split; [vm_compute; reflexivity|]. vm_compute. congruence.
Qed.

(** Assigning to a name of the variable table is lost: the read goes to the
    game variable. *)
Theorem C21_shadow_refuted : exists x d g,
  switch_data ex_tab (mkSwitch 0 0 false [] [NAssign x (NValue 5); NVar x] [] (RRef 0)) = Some d /\
  game_parse d = Some g /\ fst (game_value ex_game g m0) <> 5.
Proof.
  exists (nm "current_year"). do 2 eexists. split; [vm_compute; reflexivity|]. split; [vm_compute; reflexivity|].
  vm_compute. congruence.
Qed.

(** Names of variables 60..7F (except tile_height) are written without the
    parameter byte the format requires: the game cannot read the record. *)
Definition ex_houses : name -> option vdata := match va2_vars 15 with Some t => t | None => fun _ => None end.
Theorem C21_param_name_refuted : exists d,
  switch_data ex_houses (mkSwitch 15 0 false [] [NVar (nm "nearby_tile_slope")] [] (RRef 0)) = Some d /\ game_parse d = None.
Proof. eexists. split; [vm_compute; reflexivity|]. vm_compute. reflexivity. Qed.
(** ... and a parameter given for a named variable is ignored: both records
    are the same. *)
Theorem C21_param_ignored_refuted : forall tab x p1 p2,
  switch_data tab (one_line (NVarP x p1)) = switch_data tab (one_line (NVarP x p2)).
Proof. reflexivity. Qed.

(** A procedure written with this library uses register 80 too: calling it
    while a temporary is alive destroys the caller's result. *)
Definition clobber : game unit :=
  mkGame (fun _ _ _ => 2) (fun _ m => (3, mkM (fset (tmp m) 128 77) (prm m) (aux m))).
Theorem C21_procedure_clobbers_refuted : exists e d g v s', supported ex_tab e = true /\
  switch_data ex_tab (one_line e) = Some d /\ game_parse d = Some g /\
  eval_lines clobber user_reg ex_tab [] [e] 0 (mkU (tmp m0) (prm m0) [] tt) = Some (v, s') /\
  fst (game_value clobber g m0) <> v.
Proof.
  exists (NExpr 0 (NCall 1) (NExpr 10 (NVar (nm "current_year")) (NValue 4))). do 4 eexists.
  split; [reflexivity|]. split; [vm_compute; reflexivity|]. split; [vm_compute; reflexivity|].
  split; [vm_compute; reflexivity|]. vm_compute. congruence.
Qed.

(** A subroutine bound to a number never compiles. *)
Theorem C21_int_subroutine_refuted : forall tab x n subs isv code c', 0 <= n ->
  dict_get bytes_eqb subs x = Some (SubInt n) -> compile tab (NCallN x) 0 4294967295 (ctx_init 128 subs) <> Some (isv, code, c').
Proof.
  intros tab x n subs isv code c' Hn D. cbn [compile ctx_init c_subs]. rewrite D. cbn [bind sub_id].
  change (0 <? 32) with true. change (4294967295 <=? 4294967295) with true. cbv iota.
  unfold pk_varp. cbn [concat_opt]. destruct (pack_B 126); [|discriminate]. cbn [bind].
  unfold pack_B. assert (256 <= Z.lor n 32768).
  { apply Z.le_trans with 32768; [lia|]. rewrite Z.lor_comm. apply Z.ldiff_le; [apply Z.lor_nonneg; lia|].
    apply Z.bits_inj'. intros i _. rewrite Z.ldiff_spec, Z.lor_spec, Z.bits_0. destruct (Z.testbit 32768 i); reflexivity. }
  assert ((0 <=? Z.lor n 32768) && (Z.lor n 32768 <? 256) = false) as -> by lia. discriminate.
Qed.

(** ** C10: the branch picked by the game is the user's.  (The hypothesis on
    ranges follows from low <= high; without it see the refuted statement: a
    range with high < 0 <= low means nothing to the user but matches in the
    game.) *)
Theorem C10_branch : forall tab sw d, Forall (fun e => supported tab e = true) (sw_lines sw) ->
  switch_data tab sw = Some d -> Forall (fun r => r_low r <= r_high r \/ ~ (r_high r < 0 <= r_low r)) (sw_ranges sw) ->
  exists g, game_parse d = Some g /\ forall v, 0 <= v < 2 ^ 32 ->
    pick (g_ranges g) (g_default g) v = get_ref_id (choose (sw_ranges sw) (sw_default sw) (s32 v)).
Proof.
  intros tab sw d F H N. assert (N' : Forall (fun r => ~ (r_high r < 0 <= r_low r)) (sw_ranges sw))
    by (eapply Forall_impl; [|exact N]; cbv beta; lia). clear N. rename N' into N.
  destruct (switch_good unit triv triv_clean tab sw d F H) as [g [P [_ [_ [_ [_ [_ E]]]]]]]. eauto.
Qed.
Theorem C10_inverted_refuted : exists sw d g v,
  switch_data ex_tab sw = Some d /\ game_parse d = Some g /\ 0 <= v < 2 ^ 32 /\
  pick (g_ranges g) (g_default g) v <> get_ref_id (choose (sw_ranges sw) (sw_default sw) (s32 v)).
Proof.
  exists (mkSwitch 0 0 false [] [NValue 1] [mkRange 5 (-5) (RRef 1)] (RRef 2)). do 2 eexists. exists 6.
  split; [vm_compute; reflexivity|]. split; [vm_compute; reflexivity|]. split; [lia|]. vm_compute. congruence.
Qed.
Example C10_example : exists d g, switch_data ex_tab ex_switch = Some d /\ game_parse d = Some g /\
  map (pick (g_ranges g) (g_default g)) [0; 1; 2; 2 ^ 32 - 1; 2 ^ 32 - 2; 2 ^ 32 - 3] = [5; 6; 7; 5; 5; 7] /\
  Forall (fun r => r_low r <= r_high r \/ ~ (r_high r < 0 <= r_low r)) (sw_ranges ex_switch).
Proof.
  eexists _, _. split; [vm_compute; reflexivity|]. split; [vm_compute; reflexivity|]. split; [vm_compute; reflexivity|].
  repeat constructor; cbn; lia.
Qed.

(** ** C11: decoding a record of the game.  [clean] is explained in
    SpecVA2Decode.v; the decoded code means what the game computes, and
    compiling it again (with what the parser makes of comparisons) gives the
    same bytes.  Full statement: for every record; missing: records that are
    not [clean] and, for the second part, unsigned ranges above 2^31. *)
Theorem C11_decode_partial : forall (A : Type) (G : game A) tab vinvs vinv d g, bytesb d = true -> game_parse (2 :: d) = Some g ->
  0 <= g_feature g <= 20 -> vinvs (g_feature g) = Some vinv -> clean tab vinv (g_adjusts g) ->
  exists sw, decode_switch vinvs d = Some sw /\
    sw_feature sw = g_feature g /\ sw_ref_id sw = g_id g /\ sw_related sw = g_related g /\ sw_subs sw = [] /\
    sw_ranges sw = map (fun r => let '(grp, lo, hi) := r in mkRange lo hi (RRef grp)) (g_ranges g) /\
    sw_default sw = RRef (g_default g) /\
    (forall m, eval_lines G any_reg tab [] (sw_lines sw) 0 (user_of m) =
       let '(v, m') := game_value G g m in Some (v, user_of m')) /\
    (Forall (fun r => let '(_, lo, hi) := r in lo < 2 ^ 31 /\ hi < 2 ^ 31) (g_ranges g) ->
     switch_data tab (mkSwitch (sw_feature sw) (sw_ref_id sw) (sw_related sw) (sw_subs sw)
       (map lower (sw_lines sw)) (sw_ranges sw) (sw_default sw)) = Some (2 :: d)).
Proof. exact decode_good. Qed.

(** Encode, then decode: same feature, id, scope, default, and lines that
    compute the same value and state. *)
Theorem C11_roundtrip_partial : forall (A : Type) (G : game A) tab vinvs vinv sw b d, calls_clean G ->
  Forall (fun e => supported tab e = true) (sw_lines sw) -> switch_data tab sw = Some b -> b = 2 :: d ->
  bytesb d = true -> 0 <= sw_feature sw <= 20 -> vinvs (sw_feature sw) = Some vinv ->
  (forall g, game_parse b = Some g -> clean tab vinv (g_adjusts g)) ->
  exists sw', decode_switch vinvs d = Some sw' /\
    sw_feature sw' = sw_feature sw /\ sw_ref_id sw' = sw_ref_id sw /\ sw_related sw' = sw_related sw /\
    get_ref_id (sw_default sw') = get_ref_id (sw_default sw) /\
    (forall m v s, eval_lines G user_reg tab (sw_subs sw) (sw_lines sw) 0 (user_of m) = Some (v, s) ->
     exists s', eval_lines G any_reg tab [] (sw_lines sw') 0 (user_of m) = Some (v, s') /\
       (forall r, user_reg r = true -> u_tmp s' r = u_tmp s r) /\ (forall r, u_prm s' r = u_prm s r) /\ u_aux s' = u_aux s) /\
    (Forall (fun r => ~ (r_high r < 0 <= r_low r)) (sw_ranges sw) -> forall v, 0 <= v < 2 ^ 32 ->
     get_ref_id (choose (sw_ranges sw') (sw_default sw') v) = get_ref_id (choose (sw_ranges sw) (sw_default sw) (s32 v))).
Proof.
  intros A G tab vinvs vinv sw b d C F H -> B Hf V K.
  destruct (switch_good A G C tab sw _ F H) as [g [P [H1 [H2 [H3 [H4 [E N]]]]]]].
  rewrite <- H1 in V, Hf. destruct (decode_good A G tab vinvs vinv d g B P Hf V (K g P)) as [sw' [D [D1 [D2 [D3 [D4 [D5 [D6 [D7 _]]]]]]]]].
  exists sw'. split; [assumption|]. split; [congruence|]. split; [congruence|]. split; [congruence|].
  split; [rewrite D6, <- H4; reflexivity|]. split.
  - intros m v s X. destruct (E m v s X) as [m' [Y [_ [R1 [R2 R3]]]]]. rewrite (D7 m), Y. eexists. split; [reflexivity|].
    cbn [user_of u_tmp u_prm u_aux]. auto.
  - intros I v Hv. rewrite <- (N I v Hv), D5, D6. clear. induction (g_ranges g) as [|[[grp lo] hi] l IH]; [reflexivity|].
    cbn [map choose pick r_low r_high r_ref]. destruct ((lo <=? v) && (v <=? hi)); [reflexivity|exact IH].
Qed.

(** With the library's own tables a name always stands for the field that was
    read, when the variable takes no parameter. *)
Theorem C11_real_names : forall f tab vinv x j, va2_vars f = Some tab -> va2_vars_inv f = Some vinv ->
  has_param (j_var j) = false -> vinv (j_var j) (j_shift j) (j_mask j) = Some x -> names_field tab x j.
Proof.
  assert (C : forallb (fun ft : Z * vtable => let '(f, t) := ft in
     match dict_get Z.eqb VA2_VARS_INV f with None => false | Some ti =>
     forallb (fun kx : key3 * name => let '((var, st, mk), x) := kx in
       match dict_get bytes_eqb t x with None => false | Some d =>
         (vd_var d =? var) && (vd_start d =? st) && (0 <=? vd_size d) && (2 ^ vd_size d - 1 =? mk) &&
         (has_param var || match vd_param d with None => true | Some _ => false end) end) ti end) VA2_VARS = true)
    by (vm_compute; reflexivity).
  assert (Dz : forall {V} (l : list (Z * V)) x v, dict_get Z.eqb l x = Some v -> In (x, v) l).
  { induction l as [|[k w] l IH]; intros x v H; cbn [dict_get] in H; [discriminate|].
    destruct (x =? k) eqn:E; [apply Z.eqb_eq in E; injection H as ->; subst; now left|right; auto]. }
  assert (D3 : forall {V} (l : list (key3 * V)) x v, dict_get key3_eqb l x = Some v -> In (x, v) l).
  { induction l as [|[k w] l IH]; intros x v H; cbn [dict_get] in H; [discriminate|].
    destruct (key3_eqb x k) eqn:E; [|right; auto]. injection H as ->. left. f_equal.
    destruct x as [[x1 x2] x3], k as [[k1 k2] k3]. unfold key3_eqb in E. f_equal; [f_equal|]; lia. }
  intros f tab vinv x j Ht Hi Np Hx. unfold va2_vars in Ht. apply bind_some in Ht as [t [Dt Ht]]. apply some_inj in Ht. subst tab.
  unfold va2_vars_inv in Hi. apply bind_some in Hi as [ti [Di Hi]]. apply some_inj in Hi. subst vinv.
  rewrite forallb_forall in C. specialize (C _ (Dz _ _ _ _ Dt)). cbv beta iota in C. rewrite Di in C.
  rewrite forallb_forall in C. specialize (C _ (D3 _ _ _ _ Hx)). cbv beta iota in C. unfold names_field.
  destruct (dict_get bytes_eqb t x) as [d|]; [|discriminate]. exists d. rewrite Np in *. cbn [orb] in C.
  repeat rewrite andb_true_iff in C. destruct C as [[[[C1 C2] C3] C4] C5]. split; [reflexivity|].
  do 4 (split; [lia|]). destruct (vd_param d); [discriminate|reflexivity].
Qed.

(** A record written elsewhere: named and unnamed variables, a register, a
    comparison; [clean] for the real train tables. *)
Definition ex_record : bytes :=
  [2; 0; 9; 137; 64; 32; 255; 0; 0; 0; 0; 26; 32; 7; 0; 0; 0; 14; 26; 32; 3; 0; 0; 0; 15; 125; 3; 32; 255; 255; 255; 255;
   18; 26; 32; 5; 0; 0; 0; 2; 26; 0; 1; 0; 0; 0; 1; 1; 128; 0; 0; 0; 0; 9; 0; 0; 0; 2; 128].
Example C11_example : exists d g tab vinv, ex_record = 2 :: d /\ bytesb d = true /\ game_parse (2 :: d) = Some g /\ va2_vars 0 = Some tab /\ va2_vars_inv (g_feature g) = Some vinv /\ clean tab vinv (g_adjusts g) /\
  option_map sw_lines (decode_switch va2_vars_inv d) =
    Some [NExpr 14 (NExpr 0 (NVar (nm "position_in_consist")) (NValue 7)) (NValue 3); 
          NExpr OPE_GE (NTemp (NValue 3)) (NValue 5)].
Proof.
  do 2 eexists. destruct (va2_vars 0) as [tab|] eqn:Et; [|discriminate Et].
  destruct (va2_vars_inv 0) as [vinv|] eqn:Ei; [|discriminate Ei]. exists tab, vinv.
  split; [reflexivity|]. split; [reflexivity|]. split; [vm_compute; reflexivity|]. split; [reflexivity|].
  split; [exact Ei|]. split; [|vm_compute; reflexivity].
  assert (Nm : forall j x, j_var j <> 123 -> has_param (j_var j) = false \/ vinv (j_var j) (j_shift j) (j_mask j) = None ->
             vinv (j_var j) (j_shift j) (j_mask j) = Some x -> names_field tab x j).
  { intros j x _ [H|H] Hx; [|congruence]. eapply C11_real_names; eauto. }
  assert (N7 : vinv 125 0 4294967295 = None).
  { vm_compute in Ei. injection Ei as <-. vm_compute. reflexivity. }
  cbn [g_adjusts clean clean_rest].
  repeat match goal with |- _ /\ _ => split end; try (cbn [j_var]; lia); try exact I;
  constructor; cbn [j_type j_op j_var j_param j_shift j_mask]; try lia;
  intros x Hn Hx; (eapply (Nm (mkAdj _ _ _ _ _ _ _ _)); [exact Hn| |exact Hx]);
  cbn [j_type j_op j_var j_param j_shift j_mask]; first [left; reflexivity|right; exact N7].
Qed.

(** Ranges of negative numbers decode to unsigned bounds, which the encoder
    rejects. *)
Theorem C11_negative_range_refuted : exists sw b d sw', switch_data ex_tab sw = Some b /\ b = 2 :: d /\ decode_switch va2_vars_inv d = Some sw' /\ switch_data ex_tab sw' = None.
Proof.
  exists (mkSwitch 0 0 false [] [NValue 1] [mkRange (-3) (-2) (RRef 1)] (RRef 2)). do 3 eexists.
  split; [vm_compute; reflexivity|]. split; [reflexivity|]. split; [vm_compute; reflexivity|]. vm_compute. reflexivity.
Qed.
(** 7B with an operator other than 0F: compiling the decoded code gives a
    record that computes something else. *)
Theorem C11_indirect_refuted : exists d g sw d' g', game_parse (2 :: d) = Some g /\ decode_switch va2_vars_inv d = Some sw /\
  switch_data ex_tab sw = Some d' /\ game_parse d' = Some g' /\
  fst (game_value ex_game g' m0) <> fst (game_value ex_game g m0).
Proof.
  exists [0; 9; 137; 67; 32; 255; 0; 0; 0; 0; 123; 97; 0; 255; 0; 0; 0; 0; 2; 128]. do 4 eexists.
  split; [vm_compute; reflexivity|]. split; [vm_compute; reflexivity|]. split; [vm_compute; reflexivity|].
  split; [vm_compute; reflexivity|]. vm_compute. congruence.
Qed.
(** tile_height decodes under the name nearby_tile_height, which cannot be
    compiled to anything the game reads. *)
Theorem C11_tile_height_refuted : exists b d sw b', 
  switch_data ex_houses (mkSwitch 15 0 false [] [NVar (nm "tile_height")] [] (RRef 0)) = Some b /\ b = 2 :: d /\ decode_switch va2_vars_inv d = Some sw /\ switch_data ex_houses sw = Some b' /\ b' <> b /\ game_parse b' = None.
Proof.
  do 4 eexists. split; [vm_compute; reflexivity|]. split; [reflexivity|]. split; [vm_compute; reflexivity|].
  split; [vm_compute; reflexivity|]. split; [vm_compute; congruence|vm_compute; reflexivity].
Qed.

(** ** C22: the register allocator.  [history] is any sequence of requests. *)
Theorem C22_fresh : forall subs held names c r c', history subs held names c ->
  reserve_register c = Some (r, c') ->
  128 <= r <= 255 /\ ~ In r (taken held names) /\ forall i, 128 <= i < r -> In i (taken held names).
Proof. exact alloc_fresh. Qed.
Theorem C22_fails_only_when_full : forall subs held names c, history subs held names c ->
  reserve_register c = None <-> forall r, 128 <= r <= 255 -> In r (taken held names).
Proof. exact alloc_full. Qed.
Theorem C22_never_shared : forall subs held names c, history subs held names c ->
  NoDup (taken held names) /\ forall r, In r (taken held names) -> 128 <= r <= 255.
Proof. exact alloc_nodup. Qed.
Theorem C22_names : forall subs held names c x, history subs held names c ->
  (forall r, In (x, r) names -> reserve_variable c x = Some (r, c) /\ get_variable_register c x = Some r) /\
  (~ In x (map fst names) -> get_variable_register c x = None /\
     match reserve_variable c x with
     | Some (r, c') => 128 <= r <= 255 /\ ~ In r (taken held names)
     | None => forall r, 128 <= r <= 255 -> In r (taken held names)
     end).
Proof. exact alloc_name. Qed.
Theorem C22_release : forall subs l1 r l2 names c, history subs (l1 ++ r :: l2) names c ->
  exists c', release_register c r = Some c'.
Proof. exact alloc_release. Qed.
Example C22_example : exists c, history [] [130; 128] [(ex_x, 129)] c /\
  exists c', history [] [130] [(ex_x, 129)] c' /\ option_map fst (reserve_register c') = Some 128.
Proof.
  eexists. split.
  - eapply h_reserve; [eapply h_name_new; [eapply h_reserve; [apply h_start|reflexivity]|easy|reflexivity]|reflexivity].
  - eexists. split.
    + eapply (h_release [] [130; 128] _ _ [130] 128 []).
      * eapply h_reserve; [eapply h_name_new; [eapply h_reserve; [apply h_start|reflexivity]|easy|reflexivity]|reflexivity].
      * reflexivity.
      * reflexivity.
    + reflexivity.
Qed.

(** ** C23: simplification preserves meaning, and is undone by re-parsing. *)
Theorem C23_simplify_meaning : forall (A : Type) (G : game A) ok tab subs e s,
  eval G ok tab subs (simplify e) s = eval G ok tab subs e s.
Proof. intros. unfold simplify. apply simplify_f_ev. Qed.
Theorem C23_comparison_meaning : forall (A : Type) (G : game A) ok tab subs k x y s,
  eval G ok tab subs (mk_binop k x y) s = eval G ok tab subs (NExpr k x y) s.
Proof. intros. apply binop_ev. Qed.
Theorem C23_simplify_recognises : forall k x y, In k NML_OPE_keys ->
  simplify (mk_binop k x y) = NExpr k (simplify x) (simplify y).
Proof. exact simplify_binop. Qed.
Theorem C23_reparse_undoes : forall e, plain e = true -> lower (simplify e) = e.
Proof. intros. unfold simplify. now apply lower_simplify_f. Qed.
Example C23_example :
  simplify (NExpr 13 (NExpr 11 (NExpr 21 (NVar ex_x) (NValue 3)) (NValue 1)) (NValue 1)) =
    NExpr OPE_NHASBIT (NVar ex_x) (NValue 3) /\
  simplify (NExpr 3 (NExpr 1 (NExpr 18 (NVar ex_x) (NValue 3)) (NValue 1)) (NValue 0)) =
    NExpr OPE_GT (NVar ex_x) (NValue 3).
Proof. split; reflexivity. Qed.

Print Assumptions C21_switch_computes_code_partial.
Print Assumptions C21_compiles.
Print Assumptions C21_tables.
Print Assumptions C10_branch.
Print Assumptions C11_decode_partial.
Print Assumptions C11_roundtrip_partial.
Print Assumptions C11_real_names.
Print Assumptions C22_fresh.
Print Assumptions C22_fails_only_when_full.
Print Assumptions C22_names.
Print Assumptions C23_simplify_meaning.
Print Assumptions C23_reparse_undoes.
