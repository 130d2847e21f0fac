(** The encoders write the layouts of SpecLayout. *)
From Coq Require Import ZArith List Bool Lia ZifyBool.
From Verif Require Import Base BaseFacts CommonModel RecordsModel RecordsProofs SpecRecords VA2Model Action2Model SpecAction2 SpecLayout Action2Proofs.
Import ListNotations.
Open Scope Z_scope.

Lemma lp_B : forall v b, pack_B v = Some b -> b = [v].
Proof. intros v b H. apply pack_B_inv in H. apply H. Qed.
Lemma lp_H : forall v b, pack_H v = Some b -> b = w16 v.
Proof. intros v b H. apply pack_H_inv in H as [R ->]. unfold w16. rewrite (Z.mod_small (v / 256)); [reflexivity|]. split; [apply Z.div_pos; lia|apply Z.div_lt_upper_bound; lia]. Qed.
Lemma lp_I : forall v b, pack_I v = Some b -> b = w32 v.
Proof.
  intros v b H. apply pack_I_inv in H as [R ->]. unfold w32. rewrite (Z.mod_small (v / 16777216)); [reflexivity|].
  split; [apply Z.div_pos; lia|apply Z.div_lt_upper_bound; lia].
Qed.
Lemma lp_mk : forall l b, mk_bytes l = Some b -> b = l.
Proof. intros l b H. apply mk_bytes_inv in H. apply H. Qed.
Lemma lp_cons : forall x r b, concat_opt (x :: r) = Some b -> exists a c, x = Some a /\ concat_opt r = Some c /\ b = a ++ c.
Proof. intros x r b H. cbn [concat_opt] in H. apply bind_some in H as [a [Ha H]]. apply bind_some in H as [c [Hc H]]. apply some_inj in H. eauto. Qed.
Lemma lp_nil : forall b, concat_opt [] = Some b -> b = [].
Proof. intros b H. now apply some_inj in H. Qed.
Lemma lp_some : forall (a b : bytes), Some a = Some b -> b = a.
Proof. intros a b H. now apply some_inj in H. Qed.

Ltac lay :=
  repeat match goal with
  | H : concat_opt [] = Some _ |- _ => apply lp_nil in H; try subst
  | H : concat_opt (_ :: _) = Some _ |- _ =>
      let a := fresh "b" in let c := fresh "b" in let Ha := fresh "Q" in let E := fresh "Q" in
      apply lp_cons in H as (a & c & Ha & H & E); try subst
  | H : pack_B _ = Some _ |- _ => apply lp_B in H; try subst
  | H : pack_H _ = Some _ |- _ => apply lp_H in H; try subst
  | H : pack_I _ = Some _ |- _ => apply lp_I in H; try subst
  | H : mk_bytes _ = Some _ |- _ => apply lp_mk in H; try subst
  | H : Some _ = Some _ |- _ => apply lp_some in H; try subst
  end.
Ltac fin := cbn [app]; repeat (rewrite <- app_assoc; cbn [app]); rewrite ?app_nil_r; try reflexivity.

Lemma lp_map : forall {A} (f : A -> option bytes) (h : A -> bytes) l b, (forall x y, In x l -> f x = Some y -> y = h x) ->
  concat_opt (map f l) = Some b -> b = flat_map h l.
Proof.
  intros A f h. induction l as [|x l IH]; intros b Hf H; cbn [map flat_map] in *; [now apply lp_nil|].
  apply lp_cons in H as (a & c & Ha & H & ->). f_equal; [apply Hf; [now left|exact Ha]|apply IH; [|exact H]]. intros; apply Hf; [now right|assumption].
Qed.
Lemma lp_app : forall l m b, concat_opt (l ++ m) = Some b -> exists x y, concat_opt l = Some x /\ concat_opt m = Some y /\ b = x ++ y.
Proof.
  induction l as [|z l IH]; intros m b H; cbn [app] in H.
  - exists [], b. auto.
  - apply lp_cons in H as (a & c & Ha & H & ->). destruct (IH m c H) as (x & y & Hx & Hy & ->).
    exists (a ++ x), y. split; [cbn [concat_opt]; rewrite Ha; cbn [bind]; rewrite Hx; reflexivity|]. split; [exact Hy|apply app_assoc].
Qed.
Lemma lp_xw : forall v b, concat_opt [pack_B 255; pack_H v] = Some b -> b = xw v.
Proof. intros v b H. lay. unfold xw. fin. Qed.

Lemma ref_num_eq : forall r, 0 <= get_ref_id r < 65536 -> get_ref_id r = ref_num r.
Proof.
  assert (X : forall n, 0 <= Z.lor n 32768 < 65536 -> Z.lor n 32768 = if n <? 32768 then n + 32768 else n).
  { intros n R. assert (N : 0 <= n).
    { destruct (Z.lt_ge_cases n 0) as [L|L]; [|exact L]. assert (Z.lor n 32768 < 0) by (apply Z.lor_neg; lia). lia. }
    destruct (Z.ltb_spec n 32768) as [L|L].
    - pose proof (lor_shift n 1 15) as Q. change (Z.shiftl 1 15) with 32768 in Q. change (2 ^ 15) with 32768 in Q. rewrite Q by lia. lia.
    - assert (U : n < 65536).
      { destruct (Z.lt_ge_cases n 65536) as [L'|L']; [exact L'|]. pose proof (Z.log2_lor n 32768 N ltac:(lia)) as Q.
        assert (16 <= Z.log2 n) by (change 16 with (Z.log2 65536); apply Z.log2_le_mono; lia).
        assert (Z.log2 (Z.lor n 32768) <= 15) by (change 15 with (Z.log2 65535); apply Z.log2_le_mono; lia). lia. }
      replace n with (Z.lor (n - 32768) 32768) at 1.
      2:{ pose proof (lor_shift (n - 32768) 1 15) as Q. change (Z.shiftl 1 15) with 32768 in Q. change (2 ^ 15) with 32768 in Q. rewrite Q by lia. lia. }
      rewrite <- Z.lor_assoc, Z.lor_diag.
      pose proof (lor_shift (n - 32768) 1 15) as Q. change (Z.shiftl 1 15) with 32768 in Q. change (2 ^ 15) with 32768 in Q. rewrite Q by lia. lia. }
  intros [v|n|n|i] R; cbn [get_ref_id ref_num] in *; auto.
Qed.
Lemma lp_ref : forall r b, pack_H (get_ref_id r) = Some b -> b = w16 (ref_num r).
Proof. intros r b H. pose proof (proj1 (pack_H_inv _ _ H)) as R. apply lp_H in H. subst. now rewrite ref_num_eq. Qed.

Lemma action1_lay : forall a b, action1_data a = Some b -> b = lay1 a.
Proof.
  intros a b H. unfold action1_data in H. unfold lay1. destruct (a1_first_set a) as [s|].
  - lay. unfold xw. fin.
  - destruct (a1_set_count a <=? 255) eqn:E; destruct (a1_set_count a <? 256) eqn:E'; try lia; lay; unfold xw; fin.
Qed.

Lemma action3_lay : forall a b, action3_data a = Some b -> a3_ids a <> [] -> a3_wagon_override a = false -> b = lay3 a.
Proof.
  intros a b H N _. unfold action3_data in H. unfold lay3. destruct (len (a3_ids a) =? 0) eqn:E.
  { destruct (a3_ids a); [congruence|]. unfold len in E. cbn [length] in E. lia. }
  cbv zeta in H. apply lp_app in H as (x1 & y1 & H1 & H & ->). apply lp_app in H as (x2 & y2 & H2 & H & ->).
  apply lp_app in H as (x3 & y3 & H3 & H & ->). apply lp_app in H as (x4 & y4 & H4 & H & ->).
  apply lp_cons in H as (x5 & y5 & H5 & H & ->). apply lp_ref in H5. lay.
  apply (lp_map _ (fun i => if forallb (fun j => j <? 255) (a3_ids a) then [i] else xw i)) in H2.
  2:{ intros x y _ Hx. replace (forallb (fun j => j <? 255) (a3_ids a)) with (negb (existsb (fun x => 255 <=? x) (a3_ids a))).
      - destruct (existsb _ _); cbn [negb]; [now apply lp_xw|now apply lp_B].
      - clear. induction (a3_ids a) as [|z l IH]; [reflexivity|]. cbn [existsb forallb]. rewrite negb_orb, IH. f_equal. lia. }
  apply (lp_map _ (fun kv => fst kv :: w16 (ref_num (snd kv)))) in H4.
  2:{ intros x y _ Hx. apply lp_cons in Hx as (u & v & Q1 & Hx & ->). apply lp_cons in Hx as (u2 & v2 & Q2 & Hx & ->).
      apply lp_ref in Q2. lay. fin. }
  subst. unfold count, len. fin.
Qed.

Lemma join_terms : forall l, l <> [] -> join0 l ++ [0] = flat_map zterm l.
Proof.
  induction l as [|s l IH]; intro N; [congruence|]. destruct l as [|s' l]; [cbn [join0 flat_map]; now rewrite app_nil_r|].
  change (join0 (s :: s' :: l)) with (s ++ 0 :: join0 (s' :: l)). change (flat_map zterm (s :: s' :: l)) with (zterm s ++ flat_map zterm (s' :: l)).
  rewrite <- IH by discriminate. unfold zterm. now rewrite <- !app_assoc.
Qed.
Lemma action4_lay : forall a b, action4_data a = Some b -> a4_ok a -> b = lay4 a.
Proof.
  intros a b H (_ & Rf & Rl & Ne & _). unfold action4_data in H. unfold lay4. rewrite join_terms in H by assumption. cbv zeta in H.
  destruct (a4_generic a) eqn:G.
  - pose proof (lor128 (a4_lang a)) as L. lay. rewrite L by lia. unfold count, len. fin.
  - assert (V : is_vehicle (a4_feature a) = (a4_feature a <=? 3)) by (unfold is_vehicle; lia). rewrite V in H. clear V.
    destruct (a4_feature a <=? 3); cbn [andb] in H.
    + unfold xb. destruct (255 <=? a4_offset a) eqn:E; destruct (a4_offset a <? 255) eqn:E'; try lia; lay; unfold count, len, xw; fin.
    + lay. unfold count, len. fin.
Qed.

Lemma action5_lay : forall a b, action5_data a = Some b -> 0 <= a5_type a < 128 -> b = lay5 a.
Proof.
  intros a b H R. unfold action5_data in H. unfold lay5. pose proof (lor128 (a5_type a)) as L.
  destruct (a5_offset a); lay; rewrite ?L by lia; unfold xw; fin.
Qed.

Lemma action6_lay : forall ps b, action6_data ps = Some b -> b = lay6 ps.
Proof.
  intros ps b H. unfold action6_data in H. unfold lay6. apply lp_app in H as (x1 & y1 & H1 & H & ->). apply lp_app in H as (x2 & y2 & H2 & H & ->).
  apply (lp_map _ (fun p => let '(num, size, offset) := p in [num; size] ++ xw offset)) in H2.
  - lay. fin.
  - intros [[n s] o] y _ Hy. unfold patch6_data in Hy. lay. unfold xw. fin.
Qed.

Lemma le_digits_eq : forall n v, le_bytes n v = le_digits n v.
Proof.
  assert (X : forall n v k, le_bytes n (v / 256 ^ Z.of_nat k) = map (fun i => v / 256 ^ Z.of_nat i mod 256) (seq k n)).
  { induction n as [|n IH]; intros v k; [reflexivity|]. cbn [le_bytes seq map]. f_equal.
    - change 255 with (Z.ones 8). rewrite Z.land_ones by lia. reflexivity.
    - rewrite Z.shiftr_div_pow2 by lia. change (2 ^ 8) with 256. rewrite Z.div_div by (try apply Z.pow_nonzero; lia).
      rewrite <- IH. do 2 f_equal. rewrite Nat2Z.inj_succ, Z.pow_succ_r by lia. lia. }
  intros n v. unfold le_digits. rewrite <- X. cbn [Z.of_nat]. now rewrite Z.pow_0_r, Z.div_1_r.
Qed.
Lemma action7_lay : forall a b, action7_data a = Some b -> action7_ctor a = true -> b = lay7 a (a7_size a).
Proof.
  intros a b H C. unfold action7_data in H. unfold lay7, a7_size.
  apply bind_some in H as [n [Hn H]].
  assert (E : n = match a7_varsize a, a7_value a with Some n, _ => n | None, IVBytes b => len b | None, IVInt _ => 0 end).
  { destruct (a7_varsize a); [now apply some_inj in Hn|]. destruct (a7_value a); [discriminate|now apply some_inj in Hn]. }
  rewrite <- E. clear E Hn. destruct (a7_value a); lay; rewrite ?le_digits_eq; fin.
Qed.

Lemma action8_lay : forall a b, action8_data a = Some b -> b = lay8 a.
Proof. intros a b H. unfold action8_data in H. lay. unfold lay8, zterm. fin. Qed.
Lemma actionA_lay : forall s b, actionA_data s = Some b -> b = layA s.
Proof.
  intros s b H. unfold actionA_data in H. destruct (len s <=? 255); [|discriminate]. apply lp_cons in H as (x & y & Q & H & ->).
  apply (lp_map _ (fun s => let '(first, num) := s in num :: w16 first)) in H.
  - lay. unfold layA, count, len. fin.
  - intros [u v] y' _ Hy. cbn [fst snd] in Hy. lay. fin.
Qed.
Lemma actionB_lay : forall a t b, actionB_data a = Some b -> ab_message a = MText t -> b = layB a.
Proof.
  intros a t b H M. unfold actionB_data in H. rewrite M in H. cbv zeta in H. rewrite Z.eqb_refl in H. unfold layB. rewrite M.
  apply lp_cons in H as (x1 & y1 & H1 & H & ->). apply lp_cons in H as (x2 & y2 & H2 & H & ->).
  apply lp_cons in H as (x3 & y3 & H3 & H & ->). apply lp_cons in H as (x4 & y4 & H4 & H & ->).
  destruct (ab_text_param a), (ab_params a) as [|p ps]; lay; unfold zterm; fin.
Qed.
Lemma actionB_lay_builtin : forall a n b, actionB_data a = Some b -> ab_message a = MBuiltin n ->
  b <> layB a.
Proof.
  intros a n b H M. unfold actionB_data in H. rewrite M in H. cbv zeta in H. unfold layB. rewrite M.
  apply lp_cons in H as (x1 & y1 & H1 & H & ->). apply lp_cons in H as (x2 & y2 & H2 & H & ->).
  apply lp_cons in H as (x3 & y3 & H3 & H & ->). apply lp_cons in H as (x4 & y4 & H4 & H & ->).
  destruct (n =? 255); [discriminate|].
  assert (L : forall (u v : bytes), length u <> length v -> u <> v) by (intros u v N ->; congruence). apply L.
  destruct (ab_text_param a), (ab_params a) as [|p ps]; lay; unfold zterm; cbn [app length]; repeat (rewrite ?app_length; cbn [length app]); try lia.
Qed.

Lemma actionD_lay : forall a b, actionD_data a = Some b -> ad_ok a ->
  exists v, (match ad_value a with DVRaw r => v = r | DVNum n => v = w32 n | DVNone => ad_src1 a <> 255 /\ ad_src2 a <> 255 end) /\ b = layD a v.
Proof.
  intros a b H (Ro & _). unfold actionD_data in H. unfold layD. cbv zeta in H.
  assert (O : Z.lor (ad_op a) (128 * Z.b2z (ad_if_undefined a)) = if ad_if_undefined a then ad_op a + 128 else ad_op a).
  { destruct (ad_if_undefined a); cbn [Z.b2z]; rewrite ?Z.mul_1_r, ?Z.mul_0_r, ?Z.lor_0_r; [apply lor128; lia|reflexivity]. }
  rewrite O in H. clear O. apply lp_cons in H as (x1 & y1 & H1 & H & ->). apply lp_cons in H as (x2 & y2 & H2 & H & ->).
  destruct ((ad_src1 a =? 255) || (ad_src2 a =? 255)) eqn:E.
  - destruct (ad_value a); [discriminate| |].
    + exists (w32 n). split; [reflexivity|]. lay. fin.
    + exists b. split; [reflexivity|]. lay. fin.
  - destruct (ad_value a) as [|n|r].
    + exists []. split; [lia|]. lay. fin.
    + exists (w32 n). split; [reflexivity|]. lay. fin.
    + exists r. split; [reflexivity|]. lay. fin.
Qed.

Lemma small_lay : (forall a b, action10_data a = Some b -> b = lay10 a) /\ (forall n b, action11_data n = Some b -> b = lay11 n) /\
  (forall a b, actionFE_data a = Some b -> b = layFE a) /\ (forall l b, action12_data l = Some b -> b = lay12 l).
Proof.
  repeat split; intros a b H.
  - unfold action10_data in H. destruct (_ && _); [|discriminate]. lay. unfold lay10. fin.
  - unfold action11_data in H. lay. unfold lay11. fin.
  - unfold actionFE_data in H. lay. unfold layFE. fin.
  - unfold action12_data in H. apply lp_cons in H as (x & y & Q & H & ->).
    apply (lp_map _ (fun g => let '(f, c, b) := g in [f; c] ++ w16 b)) in H.
    + lay. unfold lay12, count, len. fin.
    + intros [[u v] w] y' _ Hy. lay. fin.
Qed.

Lemma generic_lay : forall g b, generic_data g = Some b -> b = layGeneric g.
Proof.
  intros g b H. unfold generic_data in H. apply bind_some in H as [h [Hh H]]. apply bind_some in H as [r [Hr H]].
  apply (lp_map _ w16) in Hr; [|intros; now apply lp_H]. rewrite flat_map_app in Hr.
  lay. unfold layGeneric, count, len. fin.
Qed.
Lemma random_lay : forall r b, random_data r = Some b -> random_ok r -> b = layRandom r.
Proof.
  intros r b H (_ & Sc & Co & Tr). unfold random_data in H. unfold layRandom. rewrite Co.
  apply bind_some in H as [h [Hh H]]. apply bind_some in H as [c [Hc H]]. apply bind_some in H as [t [Ht H]]. apply bind_some in H as [g [Hg H]].
  apply (lp_map _ (fun g => w16 (ref_num g))) in Hg; [|intros; now apply lp_ref].
  assert (T : Z.lor (rs_triggers r) (Z.b2z (rs_cmp_all r) * 128) = if rs_cmp_all r then rs_triggers r + 128 else rs_triggers r).
  { destruct (rs_cmp_all r); cbn [Z.b2z]; rewrite ?Z.mul_1_l, ?Z.mul_0_l, ?Z.lor_0_r; [apply lor128; lia|reflexivity]. }
  rewrite T in Ht. clear T. destruct (rs_scope r); [| |congruence]; cbn [scope_eqb andb] in Hc; lay; unfold count, len; fin.
Qed.

Lemma flags_layout : forall s, sprite_flags s = layFlags s.
Proof.
  intro s. unfold sprite_flags, layFlags, SPRITE_FLAGS. cbn [fold_left]. unfold state_skips, has_reg, ls_parent.
  rewrite (orb_comm (is_some (ls_offset s))).
  destruct (is_some (ls_extent s) || is_some (ls_offset s)); cbn [Bool.eqb negb];
  destruct (dict_get skey_beq (ls_regs s) KDodraw); destruct (dict_get skey_beq (ls_regs s) KAdd);
  destruct (dict_get skey_beq (ls_regs s) KAddPalette); destruct (dict_get skey_beq (ls_regs s) KCustomPalette);
  destruct (dict_get skey_beq (ls_regs s) KSpriteVar10); destruct (dict_get skey_beq (ls_regs s) KPaletteVar10);
  destruct (dict_get skey_beq (ls_regs s) KDeltaParentXY); destruct (dict_get skey_beq (ls_regs s) KDeltaParentZ);
  destruct (dict_get skey_beq (ls_regs s) KDeltaChildX); destruct (dict_get skey_beq (ls_regs s) KDeltaChildY); reflexivity.
Qed.
Lemma lp_b : forall v b, pack_b v = Some b -> b = [v mod 256].
Proof. intros v b H. apply pack_b_inv in H. apply H. Qed.
Lemma reg_lay : forall s k b, reg_bytes s k = Some b -> b = layReg s k.
Proof.
  intros s k b H. unfold reg_bytes, layReg in *. destruct (dict_get skey_beq (ls_regs s) k) as [v|]; [|now apply some_inj in H].
  destruct k, v; try discriminate; try (apply lp_mk in H; exact H); now apply some_inj in H.
Qed.
Lemma sprite_layout : forall aux s b, incl (map fst (ls_regs s)) plain_keys -> encode_sprite aux s = Some b -> b = laySprite aux s.
Proof.
  intros aux s b Hp H. unfold encode_sprite in H. bnd H h Hh. bnd H o Ho. bnd H r Hr. apply some_inj in H. subst b.
  unfold laySprite. f_equal.
  - rewrite flags_layout in Hh. apply lp_cons in Hh. destruct Hh as (b1 & r1 & E1 & E2 & ->).
    apply lp_cons in E2. destruct E2 as (b2 & r2 & E2 & E3 & ->). apply some_inj in E3. subst r2.
    apply lp_I in E1. apply lp_H in E2. subst. now rewrite app_nil_r.
  - f_equal.
    + destruct aux; [|now apply some_inj in Ho].
      unfold ls_parent in Ho. rewrite orb_comm in Ho.
      assert (EO : (is_some (ls_offset s) || is_some (ls_extent s)) = match ls_offset s, ls_extent s with None, None => false | _, _ => true end)
        by (destruct (ls_offset s), (ls_extent s); reflexivity).
      rewrite EO in Ho |- *. destruct (match ls_offset s, ls_extent s with None, None => false | _, _ => true end).
      * bnd Ho o1 H1. bnd Ho e1 H2. apply some_inj in Ho. subst o. f_equal.
        -- destruct (opt_default [0; 0; 0] (ls_offset s)) as [|x [|y [|z [|]]]]; try discriminate.
           apply lp_cons in H1 as (b1 & r1 & E1 & H1 & ->). apply lp_cons in H1 as (b2 & r2 & E2 & H1 & ->).
           apply lp_cons in H1 as (b3 & r3 & E3 & H1 & ->). apply some_inj in H1. subst r3.
           apply lp_b in E1, E2. apply pack_B_inv in E3 as [R3 ->]. subst. cbn [map app]. now rewrite (Z.mod_small z) by lia.
        -- destruct (opt_default [0; 0; 0] (ls_extent s)) as [|x [|y [|z [|]]]]; try discriminate. lay. fin.
      * destruct (opt_default [0; 0] (ls_pixel s)) as [|x [|y l]]; try discriminate. lay. fin.
    + assert (N : reg_bytes s KPalette = Some []).
      { unfold reg_bytes. destruct (dict_get skey_beq (ls_regs s) KPalette) as [v|] eqn:E; [|reflexivity].
        exfalso. apply dict_get_in in E. apply (in_map fst) in E. apply Hp in E. cbn in E. intuition discriminate. }
      cbn [map] in Hr. rewrite N in Hr.
      apply lp_cons in Hr as (b1 & r1 & E1 & Hr & ->). apply lp_cons in Hr as (b2 & r2 & E2 & Hr & ->).
      apply lp_cons in Hr as (b3 & r3 & E3 & Hr & ->). apply lp_cons in Hr as (b4 & r4 & E4 & Hr & ->).
      apply lp_cons in Hr as (b5 & r5 & E5 & Hr & ->). apply some_inj in Hr, E3. subst r5 b3.
      apply reg_lay in E1, E2, E4, E5. subst. cbn [flat_map app]. now rewrite !app_nil_r.
Qed.
Lemma advanced_lay : forall l b, Forall (fun s => incl (map fst (ls_regs s)) plain_keys) (ly_ground l :: ly_buildings l) ->
  advanced_data l = Some b -> b = layAdvanced l.
Proof.
  intros l b Hf H. inversion Hf as [|? ? H0 H1]; subst. unfold advanced_data in H. bnd H h Hh. bnd H g Hg. bnd H r Hr. apply some_inj in H. subst b.
  apply sprite_layout in Hg; [|exact H0]. subst g. unfold layAdvanced. f_equal; [|f_equal].
  - lay. unfold count. fin.
  - eapply lp_map; [|exact Hr]. intros x y I E. apply sprite_layout in E; [exact E|]. rewrite Forall_forall in H1. now apply H1.
Qed.
