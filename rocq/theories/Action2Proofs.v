(** Proofs about the Action 2 records. *)
From Coq Require Import ZArith List Bool Lia ZifyBool.
From Verif Require Import Base BaseFacts CommonModel CommonProofs RecordsModel RecordsProofs RecordsProofs2
  EncodableProofs VA2Model VA2Proofs VA2DecodeModel VA2Switch Action2Model SpecAction2.
Import ListNotations.
Open Scope Z_scope.

Lemma skey_eqb_eq : forall a b, skey_beq a b = true <-> a = b.
Proof. intros a b; split; [apply internal_skey_dec_bl | apply internal_skey_dec_lb]. Qed.

Lemma dict_get_none : forall (r : list (skey * sval)) k, ~ In k (map fst r) -> dict_get skey_beq r k = None.
Proof.
  induction r as [|[k' v] r IH]; intros k H; cbn [dict_get]; [reflexivity|].
  destruct (skey_beq k k') eqn:E.
  - apply skey_eqb_eq in E. subst. cbn in H. tauto.
  - apply IH. cbn in H. tauto.
Qed.
Lemma dict_get_in : forall (r : list (skey * sval)) k v, dict_get skey_beq r k = Some v -> In (k, v) r.
Proof.
  induction r as [|[k' v'] r IH]; intros k v H; cbn [dict_get] in H; [discriminate|].
  destruct (skey_beq k k') eqn:E.
  - apply skey_eqb_eq in E. subst. apply some_inj in H. subst. now left.
  - right. now apply IH.
Qed.
Lemma plain_none : forall (r : list (skey * sval)) k, incl (map fst r) plain_keys -> ~ In k plain_keys -> dict_get skey_beq r k = None.
Proof. intros r k H N. apply dict_get_none. intro I. apply N, H, I. Qed.

Ltac nplain := let I := fresh in intro I; cbn [plain_keys In] in I;
  repeat (destruct I as [I|I]; [discriminate|]); exact I.

Definition key_norm (s : lsprite) (k : skey) : list (skey * sval) :=
  match dict_get skey_beq (ls_regs s) k with Some v => [(k, norm_val k v)] | None => [] end.

Lemma sprite_flags_plain : forall s, incl (map fst (ls_regs s)) plain_keys ->
  sprite_flags s = fold_left (fun flags e => let '(k, (st, mask, _, _)) := e in
      Z.lor flags (if has_reg s k then mask else 0))
      (filter (fun e => existsb (skey_beq (fst e)) plain_keys) SPRITE_FLAGS) 0.
Proof.
  intros s Hp.
  assert (N : forall k, ~ In k plain_keys -> has_reg s k = false)
    by (intros; unfold has_reg; now rewrite plain_none).
  unfold sprite_flags. set (z := 0) at 1 3. clearbody z. revert z. assert (HT : Forall (fun e => In (fst e) plain_keys -> fst (fst (fst (snd e))) = None) SPRITE_FLAGS).
    { unfold SPRITE_FLAGS. repeat constructor; intro I; try reflexivity; exfalso; revert I; nplain. }
    induction HT as [|[k [[[st mask] sz] cv]] l HT _ IH]; intro z; [reflexivity|].
    cbn [fold_left filter fst snd] in *. rewrite IH. clear IH.
    destruct (existsb (skey_beq k) plain_keys) eqn:I.
    - apply existsb_exists in I as [k' [I J]]. apply skey_eqb_eq in J. subst k'. rewrite (HT I).
      cbn [state_skips fold_left]. destruct (has_reg s k); [reflexivity|now rewrite Z.lor_0_r].
    - rewrite N; [destruct (state_skips st (ls_parent s)); reflexivity|].
      intro J. assert (X : existsb (skey_beq k) plain_keys = true)
        by (apply existsb_exists; exists k; split; [exact J|now apply skey_eqb_eq]). congruence.
Qed.

Lemma flags_plain : forall s, incl (map fst (ls_regs s)) plain_keys ->
  let f := sprite_flags s in
  (Z.land f 1 =? 0) = negb (has_reg s KDodraw) /\ (Z.land f 2 =? 0) = negb (has_reg s KAdd) /\
  (Z.land f 4 =? 0) = true /\ (Z.land f 8 =? 0) = negb (has_reg s KCustomPalette) /\
  (Z.land f 16 =? 0) = true /\ (Z.land f 32 =? 0) = true /\
  (Z.land f 64 =? 0) = negb (has_reg s KSpriteVar10) /\ (Z.land f 128 =? 0) = negb (has_reg s KPaletteVar10) /\
  0 <= f < 65536.
Proof.
  intros s Hp.
  rewrite (sprite_flags_plain s Hp). cbv zeta. cbn [filter SPRITE_FLAGS existsb fst skey_beq plain_keys orb fold_left].
  destruct (has_reg s KDodraw), (has_reg s KAdd), (has_reg s KCustomPalette), (has_reg s KSpriteVar10), (has_reg s KPaletteVar10);
  repeat split; reflexivity || discriminate.
Qed.

Lemma step_byte : forall s k mask b t tabl f p, In k [KDodraw; KAdd; KSpriteVar10; KPaletteVar10] ->
  reg_bytes s k = Some b -> (Z.land f mask =? 0) = negb (has_reg s k) ->
  rd_regs ((k, (None, mask, 1, skey_beq k KAdd)) :: tabl) f p (b ++ t)
  = do (r, d) <- rd_regs tabl f p t; Some (key_norm s k ++ r, d).
Proof.
  intros s k mask b t tabl f p Hk Hb Hf. cbn [rd_regs]. rewrite Hf.
  unfold has_reg, key_norm in *. unfold reg_bytes in Hb.
  destruct (dict_get skey_beq (ls_regs s) k) as [v|]; cbn [negb state_skips app].
  - cbn [Z.eqb Pos.eqb].
    destruct Hk as [<-|[<-|[<-|[<-|[]]]]]; destruct v; try discriminate Hb;
    try (apply mk_bytes_inv in Hb as [_ ->]); try (apply some_inj in Hb; subst b); reflexivity.
  - apply some_inj in Hb. subst b. cbn [app]. destruct (rd_regs tabl f p t) as [[r d]|]; reflexivity.
Qed.
Lemma step_skip : forall k st mask sz cv tabl f p t, (Z.land f mask =? 0) = true ->
  rd_regs ((k, (st, mask, sz, cv)) :: tabl) f p t = rd_regs tabl f p t.
Proof. intros. cbn [rd_regs]. now rewrite H. Qed.
Lemma step_custom : forall s mask t tabl f p, (Z.land f mask =? 0) = negb (has_reg s KCustomPalette) ->
  rd_regs ((KCustomPalette, (None, mask, 0, false)) :: tabl) f p t
  = do (r, d) <- rd_regs tabl f p t; Some (key_norm s KCustomPalette ++ r, d).
Proof.
  intros s mask t tabl f p Hf. cbn [rd_regs]. rewrite Hf. unfold has_reg, key_norm in *.
  destruct (dict_get skey_beq (ls_regs s) KCustomPalette) as [v|]; cbn [negb state_skips app Z.eqb bind].
  - destruct v; reflexivity.
  - destruct (rd_regs tabl f p t) as [[r d]|]; reflexivity.
Qed.

Lemma regs_rt : forall s b t p, incl (map fst (ls_regs s)) plain_keys ->
  concat_opt (map (reg_bytes s) [KDodraw; KAdd; KPalette; KSpriteVar10; KPaletteVar10]) = Some b ->
  rd_regs SPRITE_FLAGS (sprite_flags s) p (b ++ t) = Some (norm_regs (ls_regs s), t).
Proof.
  intros s b t p Hp H. destruct (flags_plain s Hp) as (F1 & F2 & F3 & F4 & F5 & F6 & F7 & F8 & _).
  cbn [map] in H.
  rewrite concat_cons in H. apply bind_some in H as [b1 [H1 H]]. apply bind_some in H as [r1 [H H']]. apply some_inj in H'. subst b.
  rewrite concat_cons in H. apply bind_some in H as [b2 [H2 H]]. apply bind_some in H as [r2 [H H']]. apply some_inj in H'. subst r1.
  rewrite concat_cons in H. apply bind_some in H as [b3 [H3 H]]. apply bind_some in H as [r3 [H H']]. apply some_inj in H'. subst r2.
  rewrite concat_cons in H. apply bind_some in H as [b4 [H4 H]]. apply bind_some in H as [r4 [H H']]. apply some_inj in H'. subst r3.
  rewrite concat_cons in H. apply bind_some in H as [b5 [H5 H]]. apply bind_some in H as [r5 [H H']]. apply some_inj in H'. subst r4.
  cbn [concat_opt] in H. apply some_inj in H. subst r5.
  unfold reg_bytes in H3. rewrite (plain_none (ls_regs s) KPalette) in H3 by (assumption || nplain).
  apply some_inj in H3. subst b3. cbn [app]. rewrite app_nil_r, <- !app_assoc.
  unfold SPRITE_FLAGS.
  rewrite (step_byte s KDodraw 1 b1) by (cbn; tauto).
  rewrite (step_byte s KAdd 2 b2) by (cbn; tauto).
  rewrite step_skip by assumption. rewrite (step_custom s) by assumption.
  rewrite !step_skip by assumption.
  rewrite (step_byte s KSpriteVar10 64 b4) by (cbn; tauto).
  rewrite (step_byte s KPaletteVar10 128 b5) by (cbn; tauto).
  cbn [rd_regs bind]. unfold norm_regs, plain_keys. cbn [flat_map].
  rewrite ?app_nil_r, <- ?app_assoc. reflexivity.
Qed.

Ltac bnd H x Hx := apply bind_some in H as [x [Hx H]]; cbv beta iota in H.

Lemma sprite_head : forall s h t, sprite_id_ok (ls_sprite s) ->
  concat_opt [pack_I (sr_to_grf false (ls_sprite s)); pack_H (sprite_flags s)] = Some h ->
  rd_sprite true (h ++ t) = Some (ls_sprite s, sprite_flags s, t).
Proof.
  intros s h t [H1 H2] H. rewrite !concat_cons in H. bnd H x Hx. bnd H y Hy. bnd Hy z Hz.
  cbn [concat_opt bind] in Hy. apply some_inj in Hy, H. subst y h.
  unfold rd_sprite. rewrite app_nil_r, <- app_assoc.
  rewrite (rd_I_pack _ _ _ Hx). cbn [bind]. rewrite (rd_H_pack _ _ _ Hz). cbn [bind].
  now rewrite (proj1 (from_to_grf false (ls_sprite s) H1 H2)).
Qed.

Lemma ground_rt : forall s b t, ground_ok s -> encode_sprite false s = Some b ->
  rd_ground true (b ++ t) = Some (ground_norm s, t).
Proof.
  intros s b t [H1 H2] H. unfold encode_sprite in H. bnd H h Hh. bnd H o Ho. bnd H r Hr.
  apply some_inj in H, Ho. subst b o. cbn [app].
  unfold rd_ground. rewrite <- app_assoc, (sprite_head s h) by assumption. cbn [bind].
  rewrite regs_rt by assumption. reflexivity.
Qed.

Lemma building_rt : forall s b t, building_ok s -> encode_sprite true s = Some b ->
  rd_building true true (b ++ t) = Some (building_norm s, t).
Proof.
  intros s b t (H1 & H2 & H3) H. unfold encode_sprite in H. bnd H h Hh. bnd H o Ho. bnd H r Hr.
  apply some_inj in H. subst b. unfold rd_building.
  rewrite <- app_assoc, (sprite_head s h) by assumption. cbn [bind]. rewrite <- app_assoc.
  unfold building_norm. unfold ls_parent in Ho.
  destruct (is_some (ls_extent s) || is_some (ls_offset s)) eqn:P.
  - bnd Ho o1 Ho1. bnd Ho e1 He1. apply some_inj in Ho. subst o.
    destruct (opt_default [0; 0; 0] (ls_offset s)) as [|x [|y [|z [|]]]] eqn:EO; try discriminate Ho1.
    assert (O : 0 <= x /\ 0 <= y /\ z <> 128).
    { destruct (ls_offset s) as [l|]; cbn [opt_default] in EO.
      - apply H3. now rewrite EO.
      - injection EO as <- <- <-. lia. }
    destruct (opt_default [0; 0; 0] (ls_extent s)) as [|ex [|ey [|ez [|]]]] eqn:EE; try discriminate He1.
    cbn [concat_opt] in Ho1, He1. inv_opt. inv_pack. cbn [app].
    rewrite !rd_B_cons. cbn [bind]. rewrite !rd_B_cons. cbn [bind]. rewrite !rd_B_cons. cbn [bind].
    replace (z =? 128) with false by lia. cbn [negb].
    rewrite !rd_B_cons. cbn [bind]. rewrite !rd_B_cons. cbn [bind]. rewrite !rd_B_cons. cbn [bind].
    rewrite regs_rt by assumption. cbn [bind]. rewrite !Z.mod_small by lia.
    rewrite <- EO. rewrite <- EE. destruct (ls_offset s), (ls_extent s); try discriminate P; reflexivity.
  - destruct (ls_extent s), (ls_offset s); try discriminate P.
    destruct (opt_default [0; 0] (ls_pixel s)) as [|x [|y q]] eqn:EE; try discriminate Ho.
    cbn [concat_opt] in Ho. inv_opt. inv_pack. cbn [app].
    rewrite !rd_B_cons. cbn [bind]. rewrite !rd_B_cons. cbn [bind]. rewrite !rd_B_cons. cbn [bind].
    cbn [Z.eqb Pos.eqb negb].
    rewrite regs_rt by assumption. reflexivity.
Qed.

Lemma rd_n_norm : forall {A B} (enc : A -> option bytes) (rd : bytes -> option (B * bytes)) (norm : A -> B) (P : A -> Prop),
  (forall x b r, P x -> enc x = Some b -> rd (b ++ r) = Some (norm x, r)) ->
  forall l b r, Forall P l -> concat_opt (map enc l) = Some b ->
  rd_n rd (length l) (b ++ r) = Some (map norm l, r).
Proof.
  intros A B enc rd norm P H. induction l as [|x l IH]; intros b r F E; cbn [map concat_opt] in E.
  - apply some_inj in E. subst b. reflexivity.
  - bnd E h Hh. bnd E t Ht. apply some_inj in E. subst b. inversion F; subst.
    cbn [length rd_n map]. rewrite <- app_assoc. rewrite (H x h) by assumption. cbn [bind].
    rewrite IH by assumption. reflexivity.
Qed.

Lemma land_add64 : forall n, 0 <= n < 64 -> Z.land (n + 64) 64 =? 0 = false /\ Z.land (n + 64) 63 = n.
Proof.
  intros n H. split.
  - apply Z.eqb_neq. intro E. assert (B : Z.testbit (Z.land (n + 64) 64) 6 = false) by (rewrite E; apply Z.bits_0).
    rewrite Z.land_spec in B. change (Z.testbit 64 6) with true in B. rewrite andb_true_r in B.
    apply Z.testbit_false in B; [|lia]. change (2 ^ 6) with 64 in B.
    replace ((n + 64) / 64) with 1 in B by lia. discriminate.
  - change 63 with (Z.ones 6). rewrite Z.land_ones by lia. change (2 ^ 6) with 64. lia.
Qed.

Lemma memz_lit : forall x l, memz x l = false <-> ~ In x l.
Proof. intros. split; [apply memz_notIn|]. intro N. destruct (memz x l) eqn:E; [|reflexivity]. apply memz_In in E. tauto. Qed.

Lemma advanced_rt : forall vinvs l b, advanced_init l = Some l -> layout_ok l -> advanced_data l = Some b ->
  exists d, b = 2 :: d /\ decode_action2 vinvs d = Some (A2Layout LAdvanced (layout_norm l)).
Proof.
  intros vinvs l b _ (Hf & Hg & Hb & Hn) H. unfold advanced_data in H. bnd H h Hh. bnd H g Hg'. bnd H bs Hbs.
  apply some_inj in H. subst b. cbn [concat_opt] in Hh. inv_opt. inv_pack. cbn [app].
  eexists. split; [reflexivity|]. unfold decode_action2. rewrite rd_B_cons. cbn [bind].
  pose proof (len_nonneg (ly_buildings l)) as Hp.
  destruct l as [f ref g0 bl]. cbn [ly_feature ly_ref_id ly_ground ly_buildings] in *.
  rewrite feature_ok by (cbn in Hf; lia). cbn [bind]. rewrite rd_B_cons. cbn [bind]. rewrite rd_B_cons. cbn [bind].
  destruct (memz (len bl + 64) [129; 130; 133; 134; 137; 138]) eqn:M1; [apply memz_In in M1; cbn in M1; lia|].
  destruct (memz (len bl + 64) [128; 131; 132]) eqn:M2; [apply memz_In in M2; cbn in M2; lia|].
  clear M1 M2.
  destruct (memz f [7; 9; 15; 17]) eqn:M3; [|apply memz_lit in M3; cbn in Hf, M3; tauto].
  unfold read_sprite_layout.
  destruct (memz f [7; 9; 15; 10]) eqn:M4; [|apply memz_lit in M4; cbn in Hf, M4; tauto].
  replace (len bl + 64 =? 0) with false by lia. rewrite Z.max_l by lia.
  destruct (land_add64 (len bl)) as [L1 L2]; [lia|]. rewrite L1, L2. cbn [negb].
  rewrite (ground_rt g0 g) by assumption. cbn [bind].
  rewrite len_nat. rewrite <- (app_nil_r bs).
  rewrite (rd_n_norm (encode_sprite true) (rd_building true true) building_norm building_ok) by
    (assumption || (intros; now apply building_rt)).
  cbn [bind]. reflexivity.
Qed.

Lemma reg_bytes_ok : forall s k, regs_ok (ls_regs s) -> incl (map fst (ls_regs s)) plain_keys -> k <> KCustomPalette ->
  exists b, reg_bytes s k = Some b.
Proof.
  intros s k H Hp Hk. unfold reg_bytes. destruct (dict_get skey_beq (ls_regs s) k) as [v|] eqn:E; [|eauto].
  apply dict_get_in in E. pose proof (proj1 (Forall_forall _ _) H _ E) as V. cbn [fst snd] in V.
  assert (I : In k plain_keys) by (apply Hp; apply in_map_iff; exists (k, v); auto).
  assert (B : forall n, 0 <= n < 256 -> exists b, mk_bytes [n] = Some b).
  { intros n Hn. exists [n]. apply mk_bytes_ok. cbn [bytesb forallb]. unfold byteb. lia. }
  destruct I as [<-|[<-|[<-|[<-|[<-|[]]]]]]; destruct v; cbn [val_ok] in V; eauto; tauto.
Qed.

Lemma encode_sprite_ok : forall aux s, sprite_id_ok (ls_sprite s) -> incl (map fst (ls_regs s)) plain_keys ->
  building_enc s -> exists b, encode_sprite aux s = Some b.
Proof.
  intros aux s [H1 H2] Hp (R & O & E & P). unfold encode_sprite.
  pose proof (proj2 (from_to_grf false (ls_sprite s) H1 H2)) as G.
  pose proof (flags_plain s Hp) as F. cbv zeta in F. destruct F as (_ & _ & _ & _ & _ & _ & _ & _ & F).
  assert (Y : exists h, concat_opt [pack_I (sr_to_grf false (ls_sprite s)); pack_H (sprite_flags s)] = Some h)
    by (cbn [concat_opt]; rewrite pack_I_ok, pack_H_ok by assumption; cbn [bind]; eauto).
  destruct Y as [h ->]. cbn [bind].
  assert (X : exists o, (if aux then if ls_parent s then
               do o <- (match opt_default [0; 0; 0] (ls_offset s) with
                        | [x; y; z] => concat_opt [pack_b x; pack_b y; pack_B z] | _ => None end);
               do e <- (match opt_default [0; 0; 0] (ls_extent s) with
                        | [x; y; z] => concat_opt [pack_B x; pack_B y; pack_B z] | _ => None end);
               Some (o ++ e)
             else
               match opt_default [0; 0] (ls_pixel s) with
               | x :: y :: _ => concat_opt [pack_B x; pack_B y; pack_B 128] | _ => None end
           else Some []) = Some o).
  { destruct aux; [|eauto]. destruct (ls_parent s).
    - assert (X : exists x y z, opt_default [0; 0; 0] (ls_offset s) = [x; y; z] /\ 0 <= x < 128 /\ 0 <= y < 128 /\ 0 <= z < 256).
      { destruct (ls_offset s) as [o|]; [destruct (O o eq_refl) as (x & y & z & -> & ?); exists x, y, z; auto|].
        exists 0, 0, 0. cbn [opt_default]. repeat split; lia. }
      destruct X as (x & y & z & -> & Hx & Hy & Hz).
      assert (X : exists x y z, opt_default [0; 0; 0] (ls_extent s) = [x; y; z] /\ 0 <= x < 256 /\ 0 <= y < 256 /\ 0 <= z < 256).
      { destruct (ls_extent s) as [o|]; [exact (E o eq_refl)|].
        exists 0, 0, 0. cbn [opt_default]. repeat split; lia. }
      destruct X as (ex & ey & ez & -> & ? & ? & ?).
      cbn [concat_opt]. rewrite !pack_b_ok, !pack_B_ok by lia. cbn [bind]. eauto.
    - assert (X : exists x y, opt_default [0; 0] (ls_pixel s) = [x; y] /\ 0 <= x < 256 /\ 0 <= y < 256).
      { destruct (ls_pixel s) as [o|]; [destruct (P o eq_refl) as (x & y & -> & ?); exists x, y; auto|].
        exists 0, 0. cbn [opt_default]. repeat split; lia. }
      destruct X as (x & y & -> & ? & ?). cbn [concat_opt]. rewrite !pack_B_ok by lia. cbn [bind]. eauto. }
  destruct X as [o ->]. cbn [bind].
  destruct (concat_map_ex (reg_bytes s) [KDodraw; KAdd; KPalette; KSpriteVar10; KPaletteVar10]) as [r Hr].
  { intros k I. apply reg_bytes_ok; try assumption. intros ->. revert I. cbn. intuition discriminate. }
  rewrite Hr. cbn [bind]. eauto.
Qed.

Lemma advanced_encodable : forall l, layout_ok l -> 0 <= ly_ref_id l < 256 -> building_enc (ly_ground l) ->
  Forall building_enc (ly_buildings l) -> advanced_init l = Some l /\ exists b, advanced_data l = Some b.
Proof.
  intros l (Hf & Hg & Hb & Hn) Hr Eg Eb. pose proof (len_nonneg (ly_buildings l)). split.
  - unfold advanced_init.
    destruct (memz (ly_feature l) [7; 9; 15; 10; 20]) eqn:M; [|apply memz_lit in M; cbn in Hf, M; tauto].
    replace (len (ly_buildings l) <? 64) with true by lia. reflexivity.
  - unfold advanced_data. cbn [concat_opt]. rewrite !pack_B_ok by (cbn in Hf; lia). cbn [bind].
    destruct Hg as [G1 G2].
    destruct (encode_sprite_ok false (ly_ground l) G1 G2 Eg) as [g ->]. cbn [bind].
    destruct (concat_map_ex (encode_sprite true) (ly_buildings l)) as [x ->]; [|cbn [bind]; eauto].
    rewrite Forall_forall in *. intros s I. destruct (Hb s I) as (? & ? & ?). apply encode_sprite_ok; auto.
Qed.

(** Re-encoding what was decoded. *)
Lemma dict_get_norm : forall r k, incl (map fst r) plain_keys ->
  dict_get skey_beq (norm_regs r) k = option_map (norm_val k) (dict_get skey_beq r k).
Proof.
  intros r k H. destruct (in_dec (fun a b => skey_eq_dec a b) k plain_keys) as [I|N].
  - unfold norm_regs, plain_keys in *. cbn [flat_map].
    destruct (dict_get skey_beq r KDodraw) eqn:E1; destruct (dict_get skey_beq r KAdd) eqn:E2;
    destruct (dict_get skey_beq r KCustomPalette) eqn:E3; destruct (dict_get skey_beq r KSpriteVar10) eqn:E4;
    destruct (dict_get skey_beq r KPaletteVar10) eqn:E5; cbn [app dict_get];
    destruct I as [<-|[<-|[<-|[<-|[<-|[]]]]]]; cbn [skey_beq]; rewrite ?E1, ?E2, ?E3, ?E4, ?E5; reflexivity.
  - rewrite (plain_none r k H N). apply dict_get_none. intro I. apply N.
    unfold norm_regs in I. apply in_map_iff in I as [[k' v] [<- I]]. apply in_flat_map in I as [k'' [J I]].
    destruct (dict_get skey_beq r k''); [|destruct I]. destruct I as [I|[]]. apply pair_inj in I as [<- _]. exact J.
Qed.

Lemma norm_regs_plain : forall r, incl (map fst (norm_regs r)) plain_keys.
Proof.
  intros r k I. unfold norm_regs in I. apply in_map_iff in I as [[k' v] [<- I]]. apply in_flat_map in I as [k'' [J I]].
  destruct (dict_get skey_beq r k''); [|destruct I]. destruct I as [I|[]]. apply pair_inj in I as [<- _]. exact J.
Qed.

Lemma reg_bytes_norm : forall s s' k, incl (map fst (ls_regs s)) plain_keys -> ls_regs s' = norm_regs (ls_regs s) ->
  k <> KCustomPalette -> reg_bytes s' k = reg_bytes s k.
Proof.
  intros s s' k Hp E Hk. unfold reg_bytes. rewrite E, dict_get_norm by assumption.
  destruct (dict_get skey_beq (ls_regs s) k) as [v|]; [|reflexivity]. cbn [option_map].
  destruct k; try (exfalso; now apply Hk); destruct v; reflexivity.
Qed.
Lemma flags_norm : forall s s', incl (map fst (ls_regs s)) plain_keys -> ls_regs s' = norm_regs (ls_regs s) ->
  sprite_flags s' = sprite_flags s.
Proof.
  intros s s' Hp E. rewrite !sprite_flags_plain by (assumption || (rewrite E; apply norm_regs_plain)).
  generalize 0 at 2 4. induction (filter _ _) as [|[k [[[st m] z] c]] l IH]; intro n; [reflexivity|].
  cbn [fold_left]. replace (has_reg s' k) with (has_reg s k); [apply IH|].
  unfold has_reg. rewrite E, dict_get_norm by assumption. now destruct (dict_get skey_beq (ls_regs s) k).
Qed.
Lemma regs_norm : forall s s', incl (map fst (ls_regs s)) plain_keys -> ls_regs s' = norm_regs (ls_regs s) ->
  map (reg_bytes s') [KDodraw; KAdd; KPalette; KSpriteVar10; KPaletteVar10]
  = map (reg_bytes s) [KDodraw; KAdd; KPalette; KSpriteVar10; KPaletteVar10].
Proof.
  intros s s' Hp E. cbn [map].
  now rewrite (reg_bytes_norm s s' KDodraw), (reg_bytes_norm s s' KAdd), (reg_bytes_norm s s' KPalette),
    (reg_bytes_norm s s' KSpriteVar10), (reg_bytes_norm s s' KPaletteVar10) by (assumption || discriminate).
Qed.
Lemma ground_re : forall s, incl (map fst (ls_regs s)) plain_keys ->
  encode_sprite false (ground_norm s) = encode_sprite false s.
Proof.
  intros s Hp. unfold encode_sprite. rewrite (flags_norm s (ground_norm s) Hp eq_refl).
  now rewrite (regs_norm s (ground_norm s) Hp eq_refl).
Qed.
Lemma building_norm_regs : forall s, ls_regs (building_norm s) = norm_regs (ls_regs s) /\
  ls_parent (building_norm s) = ls_parent s /\ ls_sprite (building_norm s) = ls_sprite s.
Proof. intros s. unfold building_norm, ls_parent. destruct (ls_offset s), (ls_extent s); repeat split. Qed.
Lemma building_re : forall s, incl (map fst (ls_regs s)) plain_keys ->
  encode_sprite true (building_norm s) = encode_sprite true s.
Proof.
  intros s Hp. destruct (building_norm_regs s) as (R & P & S). unfold encode_sprite.
  rewrite (flags_norm s (building_norm s) Hp R), (regs_norm s (building_norm s) Hp R), P, S.
  replace (if ls_parent s then _ else _) with
    (if ls_parent s
     then do o <- (match opt_default [0; 0; 0] (ls_offset s) with
                        | [x; y; z] => concat_opt [pack_b x; pack_b y; pack_B z] | _ => None end);
          do e <- (match opt_default [0; 0; 0] (ls_extent s) with
                        | [x; y; z] => concat_opt [pack_B x; pack_B y; pack_B z] | _ => None end);
          Some (o ++ e)
     else match opt_default [0; 0] (ls_pixel s) with
          | x :: y :: _ => concat_opt [pack_B x; pack_B y; pack_B 128] | _ => None end); [reflexivity|].
  unfold building_norm, ls_parent.
  destruct (ls_offset s), (ls_extent s); cbn [is_some orb ls_offset ls_extent ls_pixel opt_default]; try reflexivity.
  destruct (opt_default [0; 0] (ls_pixel s)) as [|x [|y q]]; reflexivity.
Qed.
Lemma advanced_re : forall l, layout_ok l -> advanced_data (layout_norm l) = advanced_data l.
Proof.
  intros l (_ & [_ Hg] & Hb & _). unfold advanced_data, layout_norm. cbn [ly_feature ly_ref_id ly_ground ly_buildings].
  rewrite ground_re by assumption. unfold len. rewrite map_length, map_map.
  replace (map (fun x => encode_sprite true (building_norm x)) (ly_buildings l)) with
    (map (encode_sprite true) (ly_buildings l)); [reflexivity|].
  apply map_ext_in. intros s I. symmetry. apply building_re. rewrite Forall_forall in Hb. apply (Hb s I).
Qed.

(** ** Generic layouts *)
Lemma generic_rt : forall vinvs g b, generic_init g = Some g -> generic_ok g -> generic_data g = Some b ->
  exists d, b = 2 :: d /\ decode_action2 vinvs d = Some (A2Generic g).
Proof.
  intros vinvs g b Hi (Hf & Hn & Ht) H. unfold generic_data in H. bnd H h Hh. bnd H r Hr. apply some_inj in H. subst b.
  cbn [concat_opt] in Hh. inv_opt. inv_pack. cbn [app]. eexists. split; [reflexivity|].
  unfold decode_action2. rewrite rd_B_cons. cbn [bind]. rewrite feature_ok by assumption. cbn [bind].
  rewrite !rd_B_cons. cbn [bind]. rewrite !rd_B_cons. cbn [bind].
  destruct g as [f ref e1 e2]. cbn [gl_feature gl_ref_id gl_ent1 gl_ent2] in *.
  destruct (memz (len e1) [129; 130; 133; 134; 137; 138]) eqn:M1;
    [exfalso; apply Ht; apply memz_In in M1; revert M1; unfold switch_types; cbn; tauto|].
  destruct (memz (len e1) [128; 131; 132]) eqn:M2;
    [exfalso; apply Ht; apply memz_In in M2; revert M2; unfold switch_types; cbn; tauto|].
  destruct (memz f [7; 9; 15; 17]) eqn:M3; [exfalso; apply Hn; apply memz_In in M3; revert M3; cbn; tauto|].
  destruct (f =? 10) eqn:M4; [exfalso; apply Hn; cbn; lia|].
  rewrite rd_B_cons. cbn [bind]. rewrite map_app in Hr. apply concat_app_inv in Hr as (x & y & Hx & Hy & ->).
  rewrite !len_nat. rewrite (rd_n_concat pack_H rd_H rd_H_pack e1 x y Hx). cbn [bind].
  rewrite <- (app_nil_r y). rewrite (rd_n_concat pack_H rd_H rd_H_pack e2 y [] Hy). cbn [bind].
  now rewrite Hi.
Qed.

Lemma generic_encodable : forall g, generic_ok g -> 0 <= gl_ref_id g < 256 -> len (gl_ent1 g) < 256 -> len (gl_ent2 g) < 256 ->
  Forall (fun x => 0 <= x < 65536) (gl_ent1 g ++ gl_ent2 g) ->
  generic_init g = Some g /\ exists b, generic_data g = Some b.
Proof.
  intros g (Hf & Hn & _) Hr H1 H2 HF. pose proof (len_nonneg (gl_ent1 g)). pose proof (len_nonneg (gl_ent2 g)). split.
  - unfold generic_init. destruct (memz (gl_feature g) [7; 9; 15; 17; 10]) eqn:M.
    + exfalso. apply Hn. apply memz_In in M. revert M. cbn. tauto.
    + cbn [negb]. replace (forallb _ _) with true; [reflexivity|]. symmetry. apply forallb_forall.
      intros x I. rewrite Forall_forall in HF. specialize (HF x I). lia.
  - unfold generic_data. cbn [concat_opt]. rewrite !pack_B_ok by lia. cbn [bind].
    destruct (concat_map_ex pack_H (gl_ent1 g ++ gl_ent2 g)) as [x ->]; [|cbn [bind]; eauto].
    intros x I. rewrite Forall_forall in HF. exists [x mod 256; x / 256]. apply pack_H_ok, HF, I.
Qed.

(** ** Random switches *)
Lemma rd_n_map : forall {A B} (f : A -> B) (rd : bytes -> option (A * bytes)) n d l r, rd_n rd n d = Some (l, r) ->
  length l = n.
Proof.
  intros A B f rd. induction n; intros d l r H; cbn [rd_n] in H.
  - apply some_inj, pair_inj in H as [<- _]. reflexivity.
  - bnd H p Hp. destruct p as [x d']. bnd H q Hq. destruct q as [l' d'']. apply some_inj, pair_inj in H as [<- _].
    cbn [length]. f_equal. eapply IHn; eassumption.
Qed.

Lemma trig : forall t (c : bool), 0 <= t < 128 ->
  Z.land (Z.lor t (Z.b2z c * 128)) 127 = t /\ negb (Z.land (Z.lor t (Z.b2z c * 128)) 128 =? 0) = c.
Proof.
  intros t c H. destruct c; cbn [Z.b2z].
  - change (1 * 128) with 128. rewrite lor128 by assumption. split.
    + rewrite land127 by lia. lia.
    + pose proof (flag128_hi (t + 128)) as F. unfold flag in F. now rewrite F by lia.
  - change (0 * 128) with 0. rewrite Z.lor_0_r. split.
    + rewrite land127 by lia. lia.
    + pose proof (flag128_lo t) as F. unfold flag in F. now rewrite F by lia.
Qed.

Lemma random_rt : forall vinvs r b, random_ok r -> random_data r = Some b ->
  exists d, b = 2 :: d /\ decode_action2 vinvs d = Some (A2Random (random_norm r)).
Proof.
  intros vinvs r b (Hf & Hs & Hc & Ht) H. unfold random_data in H. bnd H h Hh. bnd H c Hcc. bnd H t Htt. bnd H g Hgg.
  apply some_inj in H. subst b. destruct r as [f ref sc cn tr ca lo gr].
  cbn [rs_feature rs_ref_id rs_scope rs_count rs_triggers rs_cmp_all rs_lowest rs_groups] in *. subst cn.
  apply mk_bytes_inv in Hh as [_ ->].
  replace (scope_eqb sc RRelative) with false in Hcc by (destruct sc; [reflexivity|reflexivity|exfalso; now apply Hs]).
  cbn [andb] in Hcc. apply some_inj in Hcc. subst c.
  cbn [concat_opt] in Htt. inv_opt. inv_pack. cbn [app].
  eexists. split; [reflexivity|]. unfold decode_action2. rewrite rd_B_cons. cbn [bind]. rewrite feature_ok by assumption. cbn [bind].
  rewrite !rd_B_cons. cbn [bind]. rewrite !rd_B_cons. cbn [bind].
  assert (T : exists at_, at_ = match sc with RSelf => 128 | RParent => 131 | RRelative => 132 end /\
     memz at_ [129; 130; 133; 134; 137; 138] = false /\ memz at_ [128; 131; 132] = true /\
     (if at_ =? 128 then Some RSelf else if at_ =? 131 then Some RParent
               else if at_ =? 132 then Some RRelative else None) = Some sc).
  { eexists. split; [reflexivity|]. destruct sc; repeat split. }
  destruct T as (at_ & <- & T1 & T2 & T3). rewrite T1, T2. unfold read_random_switch. rewrite T3. cbn [bind].
  replace (scope_eqb sc RRelative) with false by (destruct sc; [reflexivity|reflexivity|exfalso; now apply Hs]).
  cbn [andb bind]. rewrite rd_B_cons. cbn [bind]. rewrite rd_B_cons. cbn [bind]. rewrite rd_B_cons. cbn [bind].
  rewrite len_nat. rewrite <- (app_nil_r g).
  rewrite (rd_n_norm (fun x => pack_H (get_ref_id x)) rd_H get_ref_id (fun _ => True)
    (fun x b r _ E => rd_H_pack (get_ref_id x) b r E)) by (assumption || (rewrite Forall_forall; trivial)).
  cbn [bind]. destruct (trig tr ca Ht) as [-> ->]. unfold random_init, random_norm. cbn [rs_scope rs_feature rs_count].
  replace (scope_eqb sc RRelative) with false by (destruct sc; [reflexivity|reflexivity|exfalso; now apply Hs]).
  cbn [andb is_some Bool.eqb bind rs_ref_id rs_triggers rs_cmp_all rs_lowest rs_groups]. now rewrite map_map.
Qed.

Lemma random_encodable : forall r, random_ok r -> 0 <= rs_ref_id r < 256 -> 0 <= rs_lowest r < 256 ->
  len (rs_groups r) < 256 -> Forall (fun x => 0 <= get_ref_id x < 65536) (rs_groups r) ->
  random_init r = Some r /\ exists b, random_data r = Some b.
Proof.
  intros r (Hf & Hs & Hc & Ht) Hr Hl Hg HF. pose proof (len_nonneg (rs_groups r)) as Hp.
  assert (S : scope_eqb (rs_scope r) RRelative = false) by (destruct (rs_scope r); [reflexivity|reflexivity|exfalso; now apply Hs]).
  split.
  - unfold random_init. rewrite S, Hc. reflexivity.
  - unfold random_data. rewrite S. cbn [andb].
    rewrite mk_bytes_ok by (cbn [bytesb forallb]; unfold byteb; destruct (rs_scope r); lia). cbn [bind].
    assert (T : 0 <= Z.lor (rs_triggers r) (Z.b2z (rs_cmp_all r) * 128) < 256).
    { destruct (rs_cmp_all r); cbn [Z.b2z]; [change (1 * 128) with 128; rewrite lor128 by assumption; lia|].
      change (0 * 128) with 0. rewrite Z.lor_0_r. lia. }
    cbn [concat_opt]. rewrite !pack_B_ok by lia. cbn [bind].
    destruct (concat_map_ex (fun x => pack_H (get_ref_id x)) (rs_groups r)) as [x ->]; [|cbn [bind]; eauto].
    intros x I. rewrite Forall_forall in HF. eexists. apply pack_H_ok, HF, I.
Qed.

(** ** Production callbacks *)
Lemma rd_pairs : forall l t, Forall (fun p => length p = 2%nat) l ->
  rd_n rd_pair (length l) (concat l ++ t) = Some (l, t).
Proof.
  induction l as [|p l IH]; intros t F; [reflexivity|]. inversion F; subst.
  destruct p as [|x [|y [|]]]; try discriminate. cbn [concat length rd_n app].
  unfold rd_pair at 1. rewrite !rd_B_cons. cbn [bind]. rewrite !rd_B_cons. cbn [bind].
  now rewrite IH.
Qed.

Lemma production_decode : forall vinvs ref p b, production_bytes ref p b ->
  exists d, b = 2 :: d /\ decode_action2 vinvs d = Some (A2Production p).
Proof.
  intros vinvs ref p b H. destruct H as [a b c x y again HF|a b c x y again|i o again Hi Ho Fi Fo];
    eexists; (split; [reflexivity|]); unfold decode_action2.
  - cbn [app]. rewrite rd_B_cons. cbn [bind]. change (feature_of 10) with (Some 10). cbn [bind].
    rewrite rd_B_cons. cbn [bind]. rewrite rd_B_cons. cbn [bind memz existsb Z.eqb Pos.eqb orb].
    unfold read_production, rd_n, rd_num, lo_hi. cbn [app Z.ltb Z.compare Pos.compare Pos.compare_cont Z.eqb].
    repeat match goal with H : Forall _ (_ :: _) |- _ => inversion H; clear H; subst end.
    rewrite rd_H_mod by assumption. cbn [bind]. rewrite rd_H_mod by assumption. cbn [bind].
    rewrite rd_H_mod by assumption. cbn [bind]. rewrite rd_H_mod by assumption. cbn [bind].
    rewrite rd_H_mod by assumption. cbn [bind]. rewrite rd_B_cons. reflexivity.
  - reflexivity.
  - cbn [app]. rewrite rd_B_cons. cbn [bind]. change (feature_of 10) with (Some 10). cbn [bind].
    rewrite rd_B_cons. cbn [bind]. rewrite rd_B_cons. cbn [bind memz existsb Z.eqb Pos.eqb orb].
    unfold read_production. cbn [Z.ltb Z.compare Pos.compare Pos.compare_cont Z.eqb Pos.eqb].
    rewrite rd_B_cons. cbn [bind]. rewrite Nat2Z.id, rd_pairs by assumption. cbn [bind].
    rewrite rd_B_cons. cbn [bind]. rewrite Nat2Z.id, rd_pairs by assumption. cbn [bind].
    rewrite rd_B_cons. cbn [bind].
    unfold production_init. cbn [pr_version pr_in pr_out Z.leb Z.ltb Z.compare Pos.compare Pos.compare_cont andb].
    unfold len. replace (Z.of_nat (length i) <? 256) with true by lia. replace (Z.of_nat (length o) <? 256) with true by lia.
    reflexivity.
Qed.

(** What the production encoder emits never starts an Action 2. *)
Lemma production_wrong : forall as_lists p b, production_data as_lists p = Some b -> exists d, b = 10 :: d.
Proof.
  intros as_lists p b H. unfold production_data in H.
  destruct (pr_version p =? 0); [discriminate|]. destruct (pr_version p =? 1).
  - destruct (_ && _) in H; [|discriminate]. cbn [app map] in H. rewrite concat_cons in H.
    change (pack_B 10) with (Some [10]) in H. bnd H x Hx. bnd H y Hy. apply some_inj in H. apply some_inj in Hx.
    subst. eexists. reflexivity.
  - destruct (as_lists || _) in H; [|discriminate]. destruct (_ && _) in H; [|discriminate].
    cbn [app map] in H. rewrite concat_cons in H.
    change (pack_B 10) with (Some [10]) in H. bnd H x Hx. bnd H y Hy. apply some_inj in H. apply some_inj in Hx.
    subst. eexists. reflexivity.
Qed.

Lemma generic_collision : forall vinvs g d, In (len (gl_ent1 g)) switch_types ->
  generic_data g = Some (2 :: d) -> forall g', decode_action2 vinvs d <> Some (A2Generic g').
Proof.
  intros vinvs g d Hs H g' E. unfold generic_data in H. bnd H h Hh. bnd H r Hr. apply some_inj in H.
  cbn [concat_opt] in Hh. inv_opt. inv_pack. cbn [app] in H. injection H as <-.
  unfold decode_action2 in E. rewrite rd_B_cons in E. cbn [bind] in E.
  apply bind_some in E as [f [_ E]]. rewrite rd_B_cons in E. cbn [bind] in E. rewrite rd_B_cons in E. cbn [bind] in E.
  destruct (memz (len (gl_ent1 g)) [129; 130; 133; 134; 137; 138]) eqn:M1.
  - apply bind_some in E as [s [_ E]]. discriminate.
  - destruct (memz (len (gl_ent1 g)) [128; 131; 132]) eqn:M2.
    + apply bind_some in E as [s [_ E]]. discriminate.
    + apply memz_lit in M1, M2. revert Hs M1 M2. unfold switch_types. cbn. tauto.
Qed.

(** ** Basic layouts *)
Lemma basic_rt : forall vinvs l x y ex s0 b, In (ly_feature l) [7; 9; 15] ->
  ly_buildings l = [s0] -> ls_offset s0 = Some [x; y] -> ls_extent s0 = Some ex -> 0 <= x -> 0 <= y ->
  sprite_id_ok (ls_sprite (ly_ground l)) -> sprite_id_ok (ls_sprite s0) -> basic_data l = Some b ->
  exists d, b = 2 :: d /\ decode_action2 vinvs d = Some (A2Layout LBasic
    (mkLay (ly_feature l) (ly_ref_id l) (mkLS (ls_sprite (ly_ground l)) None None None [])
       [mkLS (ls_sprite s0) (Some [x; y; 0]) (Some ex) None []])).
Proof.
  intros vinvs l x y ex s0 b Hf Hb Ho He Hx Hy [G1 G2] [B1 B2] H. unfold basic_data in H. rewrite Hb, Ho, He in H.
  destruct ex as [|ex [|ey [|ez [|]]]]; try discriminate H.
  destruct (from_to_grf false (ls_sprite (ly_ground l)) G1 G2) as [GE GR].
  destruct (from_to_grf false (ls_sprite s0) B1 B2) as [BE BR].
  cbn [concat_opt] in H. inv_opt. inv_pack. cbn [app]. eexists. split; [reflexivity|].
  unfold decode_action2. rewrite rd_B_cons. cbn [bind].
  rewrite feature_ok by (cbn in Hf; lia). cbn [bind]. rewrite rd_B_cons. cbn [bind]. rewrite rd_B_cons. cbn [bind].
  change (memz 0 [129; 130; 133; 134; 137; 138]) with false. change (memz 0 [128; 131; 132]) with false.
  destruct (memz (ly_feature l) [7; 9; 15; 17]) eqn:M3; [|apply memz_lit in M3; cbn in Hf, M3; tauto].
  unfold read_sprite_layout.
  destruct (memz (ly_feature l) [7; 9; 15; 10]) eqn:M4; [|apply memz_lit in M4; cbn in Hf, M4; tauto].
  change (Z.max 0 1) with 1. change (Z.land 1 64) with 0. change (Z.land 1 63) with 1. cbn [Z.eqb negb].
  change (Z.to_nat 1) with 1%nat. unfold rd_ground, rd_sprite. rewrite rd_I_mod by assumption. cbn [bind].
  rewrite GE. change (rd_regs SPRITE_FLAGS 0 false ?d) with (Some (@nil (skey * sval), d)). cbn [bind].
  cbn [rd_n]. unfold rd_building, rd_sprite. rewrite rd_I_mod by assumption. cbn [bind].
  rewrite BE. rewrite !rd_B_cons. cbn [bind]. rewrite !rd_B_cons. cbn [bind]. cbn [Z.eqb negb].
  rewrite !rd_B_cons. cbn [bind]. rewrite !rd_B_cons. cbn [bind]. rewrite !rd_B_cons. cbn [bind].
  change (rd_regs SPRITE_FLAGS 0 true ?d) with (Some (@nil (skey * sval), d)). cbn [bind].
  rewrite !Z.mod_small by lia. reflexivity.
Qed.

(** No decoded basic layout can be written again: its building's offset has
    three elements. *)
Lemma basic_dead : forall vinvs d l, decode_action2 vinvs d = Some (A2Layout LBasic l) -> basic_data l = None.
Proof.
  intros vinvs d l H. unfold decode_action2 in H. bnd H p1 H1. destruct p1 as [f d1]. bnd H g H2. bnd H p3 H3. destruct p3 as [ref d3].
  bnd H p4 H4. destruct p4 as [a d4].
  destruct (memz a [129; 130; 133; 134; 137; 138]); [bnd H s Hs; discriminate|].
  destruct (memz a [128; 131; 132]); [bnd H s Hs; discriminate|].
  destruct (memz g [7; 9; 15; 17]).
  - bnd H p5 H5. destruct p5 as [k l']. apply some_inj in H. assert (k = LBasic /\ l' = l) as [-> ->] by (split; congruence). clear H.
    unfold read_sprite_layout in H5. destruct (memz g [7; 9; 15; 10]); [|discriminate]. cbv zeta in H5.
    bnd H5 p6 H6. destruct p6 as [gr d6]. bnd H5 p7 H7. destruct p7 as [bl d7].
    destruct (a =? 0) eqn:A; [|destruct (negb (Z.land (Z.max a 1) 64 =? 0)); discriminate].
    destruct (len bl =? 1) eqn:L; [|discriminate]. apply some_inj, pair_inj in H5 as [_ <-].
    unfold basic_data. cbn [ly_buildings]. destruct bl as [|s0 [|]]; try reflexivity.
    assert (a = 0) by lia. subst a. change (Z.max 0 1) with 1 in H7. change (Z.to_nat (Z.land 1 63)) with 1%nat in H7.
    cbn [rd_n] in H7. bnd H7 p8 H8. destruct p8 as [s1 d8]. cbn [bind] in H7. apply some_inj, pair_inj in H7 as [E _].
    injection E as ->. unfold rd_building in H8. bnd H8 q1 Q1. destruct q1 as [[s2 f2] d9].
    bnd H8 q2 Q2. destruct q2 as [x d10]. bnd H8 q3 Q3. destruct q3 as [y d11]. cbn [negb] in H8.
    cbn [bind Z.eqb negb] in H8. bnd H8 q4 Q4. destruct q4 as [ex d12]. bnd H8 q5 Q5. destruct q5 as [ey d13].
    bnd H8 q6 Q6. destruct q6 as [ez d14]. bnd H8 q7 Q7. destruct q7 as [rr d15]. apply some_inj, pair_inj in H8 as [<- _].
    reflexivity.
  - destruct (g =? 10).
    + bnd H s Hs. discriminate.
    + bnd H q1 Q1. destruct q1. bnd H q2 Q2. destruct q2. bnd H q3 Q3. destruct q3. bnd H q4 Q4. discriminate.
Qed.

Lemma random_relative_dead : forall r, random_init r = Some r -> rs_scope r = RRelative -> is_vehicle (rs_feature r) = false ->
  random_data r = None.
Proof.
  intros r H S V. unfold random_init in H. rewrite S, V in H. cbn [scope_eqb andb is_some] in H.
  destruct (rs_count r) eqn:C; [discriminate|]. unfold random_data. rewrite S, V, C. cbn [scope_eqb andb negb].
  destruct (mk_bytes _); reflexivity.
Qed.
