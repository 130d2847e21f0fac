(** Proofs about the fixed-layout records. *)
From Coq Require Import ZArith List Bool Lia ZifyBool.
From Verif Require Import Base BaseFacts CommonModel CommonProofs RecordsModel SpecRecords.
Import ListNotations.
Open Scope Z_scope.

Lemma rd_H_mod : forall v r, 0 <= v < 65536 -> rd_H (v mod 256 :: v / 256 :: r) = Some (v, r).
Proof. intros. rewrite rd_H_cons by lia. do 2 f_equal. lia. Qed.
Lemma rd_I_mod : forall v r, 0 <= v < 4294967296 ->
  rd_I (v mod 256 :: (v / 256) mod 256 :: (v / 65536) mod 256 :: v / 16777216 :: r) = Some (v, r).
Proof. intros. rewrite rd_I_cons by lia. do 2 f_equal. lia. Qed.
Lemma rd_ext_255 : forall v r, 0 <= v < 65536 ->
  rd_ext (255 :: v mod 256 :: v / 256 :: r) = Some (v, r).
Proof. intros. unfold rd_ext. rewrite rd_B_cons. cbn [bind Z.eqb Pos.eqb negb]. now apply rd_H_mod. Qed.
Lemma rd_ext_short : forall v r, v <> 255 -> rd_ext (v :: r) = Some (v, r).
Proof. intros. unfold rd_ext. rewrite rd_B_cons. cbn [bind]. destruct (v =? 255) eqn:E; [lia|reflexivity]. Qed.
Lemma feature_ok : forall f, 0 <= f <= 20 -> feature_of f = Some f.
Proof. intros. unfold feature_of. destruct (_ && _) eqn:E; [reflexivity|lia]. Qed.
Lemma feature_inv : forall f g, feature_of f = Some g -> g = f /\ 0 <= f <= 20.
Proof. unfold feature_of; intros; inv_opt; split; [reflexivity|lia]. Qed.

Ltac rds :=
  repeat (first [ rewrite rd_B_cons | rewrite rd_H_mod by lia | rewrite rd_I_mod by lia
                | rewrite rd_ext_255 by lia | rewrite feature_ok by lia
                | progress cbn [bind] ]; cbn [bind]).

Ltac enc_inv H := cbn [concat_opt] in H; inv_opt; inv_pack; cbn [app].

Lemma flag128_hi : forall v, 128 <= v < 256 -> flag v 128 = true.
Proof. intros. change 128 with (2 ^ 7). rewrite flag_testbit by lia.
  rewrite Z.testbit_true by lia. change (2 ^ 7) with 128. lia. Qed.
Lemma flag128_lo : forall v, 0 <= v < 128 -> flag v 128 = false.
Proof. intros. change 128 with (2 ^ 7). rewrite flag_testbit by lia.
  apply Z.testbit_false; [lia|]. change (2 ^ 7) with 128. lia. Qed.
Lemma lor128 : forall v, 0 <= v < 128 -> Z.lor v 128 = v + 128.
Proof. intros. change 128 with (Z.shiftl 1 7) at 1. rewrite lor_shift by (try change (2^7) with 128; lia).
  change (2 ^ 7) with 128. lia. Qed.
Lemma land127 : forall v, 0 <= v < 256 -> Z.land v 127 = v mod 128.
Proof. intros. change 127 with (Z.ones 7). rewrite Z.land_ones by lia. reflexivity. Qed.

(** Action 1 *)


Lemma action1_rt : forall a b, action1_data a = Some b -> a1_ok a ->
  exists d, b = 1 :: d /\ decode_action1 d = Some (a1_norm a).
Proof.
  intros [f sc n fs] b H [Hf H0]. cbn [a1_feature a1_first_set a1_set_count] in *.
  unfold action1_data in H. cbn [a1_feature a1_first_set a1_set_count a1_sprite_count] in H.
  unfold a1_norm. cbn [a1_feature a1_first_set a1_set_count a1_sprite_count].
  destruct fs as [fs|]; [|destruct (sc <=? 255) eqn:E]; enc_inv H;
    eexists; (split; [reflexivity|]); unfold decode_action1; rds; cbn [Z.eqb].
  - rds. reflexivity.
  - specialize (H0 eq_refl). destruct (sc =? 0) eqn:E'; [lia|]. rds. reflexivity.
  - rds. reflexivity.
Qed.

(** Action 3 *)
Lemma concat_app_inv : forall l m b, concat_opt (l ++ m) = Some b ->
  exists x y, concat_opt l = Some x /\ concat_opt m = Some y /\ b = x ++ y.
Proof.
  induction l as [|a l IH]; intros m b H; cbn [app concat_opt] in H.
  - exists [], b. auto.
  - inv_opt. apply IH in E0 as [x [y [Hx [Hy ->]]]].
    eexists _, y. cbn [concat_opt]. rewrite Hx. cbn [bind].
    split; [reflexivity|]. split; [exact Hy|]. now rewrite app_assoc.
Qed.

Lemma concat_map_len : forall {A} (f : A -> option bytes) l b, concat_opt (map f l) = Some b ->
  forall n, (forall x c, In x l -> f x = Some c -> length c = n) -> length b = (n * length l)%nat.
Proof.
  intros A f. induction l; intros b H n Hn; cbn [map concat_opt] in H; inv_opt; [cbn; lia|].
  rewrite app_length. cbn [length]. rewrite (Hn _ _ (or_introl eq_refl) E).
  rewrite (IHl _ E0 n); [lia|]. intros; eapply Hn; [right|]; eauto.
Qed.

Lemma dict_set_fresh : forall {K V} (eqb : K -> K -> bool),
  (forall a b, eqb a b = true <-> a = b) ->
  forall (l : list (K * V)) k v, ~ In k (map fst l) -> dict_set eqb l k v = l ++ [(k, v)].
Proof.
  intros K V eqb E. induction l as [|[k' v'] l IH]; intros k v H; cbn; [reflexivity|].
  destruct (eqb k k') eqn:X; [apply E in X; subst; exfalso; apply H; now left|].
  f_equal. apply IH. intro; apply H; now right.
Qed.

Lemma fold_dict_set : forall {K V} (eqb : K -> K -> bool),
  (forall a b, eqb a b = true <-> a = b) ->
  forall (l acc : list (K * V)), NoDup (map fst (acc ++ l)) ->
  fold_left (fun m kv => dict_set eqb m (fst kv) (snd kv)) l acc = acc ++ l.
Proof.
  intros K V eqb E. induction l as [|[k v] l IH]; intros acc H; cbn [fold_left].
  - now rewrite app_nil_r.
  - cbn [fst snd]. rewrite dict_set_fresh; auto.
    + rewrite IH; [now rewrite <- app_assoc|]. rewrite <- app_assoc. exact H.
    + rewrite map_app in H. cbn [map fst] in H. apply NoDup_remove_2 in H.
      intro X. apply H. apply in_or_app. now left.
Qed.



Lemma rd_n_map_entry : forall l b r,
  concat_opt (map (fun kv => concat_opt [pack_B (fst kv); pack_H (get_ref_id (snd kv))]) l) = Some b ->
  rd_n rd_map_entry (length l) (b ++ r)
  = Some (map (fun kv => (fst kv, RRef (get_ref_id (snd kv)))) l, r).
Proof.
  induction l as [|[k v] l IH]; intros b r H; cbn [map concat_opt] in H; inv_opt; [reflexivity|].
  inv_pack. cbn [length rd_n fst snd map]. rewrite <- app_assoc. cbn [app] in *.
  cbn [fst snd] in *. unfold rd_map_entry at 1. rds. now rewrite (IH _ _ E0).
Qed.

Lemma action3_rt : forall a b, action3_data a = Some b -> a3_ok a ->
  exists d, b = 3 :: d /\ decode_action3 d = Some (a3_norm a).
Proof.
  intros [f ids maps dflt wo] b H [Hf [Hl Hnd]]. cbn [a3_feature a3_ids a3_maps] in *.
  unfold action3_data in H. cbn [a3_feature a3_ids a3_maps a3_default] in H.
  assert (Hlz : 0 < len ids < 128) by (unfold len; lia).
  destruct (len ids =? 0) eqn:E0; [lia|].
  apply concat_app_inv in H as [x [y [Hx [H ->]]]].
  apply concat_app_inv in H as [x2 [y2 [Hids [H ->]]]].
  apply concat_app_inv in H as [x3 [y3 [Hm0 [H ->]]]].
  apply concat_app_inv in H as [x4 [y4 [Hm [Hd ->]]]].
  enc_inv Hx. eexists; split; [reflexivity|].
  unfold decode_action3. rds.
  rewrite flag128_lo by lia. rewrite E0. rewrite len_nat.
  assert (Hrd : rd_n rd_ext (length ids) (x2 ++ x3 ++ x4 ++ y4) = Some (ids, x3 ++ x4 ++ y4)).
  { destruct (existsb (fun x => 255 <=? x) ids) eqn:Ex.
    - apply (rd_n_concat (fun x => concat_opt [pack_B 255; pack_H x])); [|assumption].
      intros; now apply rd_ext_long.
    - clear E0 Hl Hlz Hm0 Hm Hd H H0 H1. revert x2 Hids. generalize (x3 ++ x4 ++ y4) as r.
      induction ids as [|i ids IH]; intros r x2 Hids; cbn [map concat_opt] in Hids; inv_opt.
      + reflexivity.
      + cbn [existsb] in Ex. apply orb_false_elim in Ex as [Ei Ex].
        inv_pack. cbn [length rd_n app]. rewrite rd_ext_short by lia. cbn [bind].
        now rewrite (IH Ex _ _ E0). }
  rewrite Hrd. cbn [bind].
  enc_inv Hm0. cbn [app]. rds. rewrite len_nat.
  rewrite (rd_n_map_entry _ _ _ Hm). cbn [bind].
  enc_inv Hd. rds.
  rewrite (fold_dict_set Z.eqb Z.eqb_eq).
  - reflexivity.
  - cbn [app]. rewrite map_map. cbn [fst]. exact Hnd.
Qed.

(** Action 4 *)
Lemma split0_app : forall s d, ~ In 0 s -> split0 (s ++ 0 :: d) = s :: split0 d.
Proof.
  induction s as [|b s IH]; intros d H; cbn [app split0]; [reflexivity|].
  destruct (b =? 0) eqn:E; [exfalso; apply H; left; lia|].
  rewrite IH; [reflexivity|]. intro X; apply H; now right.
Qed.
Lemma split0_single : forall s, ~ In 0 s -> split0 s = [s].
Proof.
  induction s as [|b s IH]; intro H; cbn [split0]; [reflexivity|].
  destruct (b =? 0) eqn:E; [exfalso; apply H; left; lia|].
  rewrite IH; [reflexivity|]. intro X; apply H; now right.
Qed.
Lemma split0_join0 : forall l, l <> [] -> (forall s, In s l -> ~ In 0 s) -> split0 (join0 l) = l.
Proof.
  induction l as [|s l IH]; intros Hn H; [congruence|].
  destruct l as [|t l].
  - cbn [join0]. apply split0_single. apply H. now left.
  - change (join0 (s :: t :: l)) with (s ++ 0 :: join0 (t :: l)).
    rewrite split0_app by (apply H; now left). f_equal. apply IH; [congruence|].
    intros; apply H; now right.
Qed.
Lemma drop_last_snoc : forall l x, drop_last (l ++ [x]) = l.
Proof. intros. unfold drop_last. apply removelast_last. Qed.


Lemma action4_rt : forall a b, action4_data a = Some b -> a4_ok a ->
  exists d, b = 4 :: d /\ decode_action4 d = Some a.
Proof.
  intros a b H [Hc [Hf [Hlang [Hne Hnz]]]].
  assert (Hs : forall sd, sd = join0 (a4_strings a) ->
            match sd with [] => [[]] | _ => split0 sd end = a4_strings a).
  { intros sd ->. pose proof (split0_join0 _ Hne Hnz) as X.
    destruct (join0 (a4_strings a)); [|exact X]. exact X. }
  unfold action4_data in H.
  destruct (a4_generic a) eqn:Eg; [|destruct (is_vehicle (a4_feature a) && (255 <=? a4_offset a)) eqn:Ev];
    enc_inv H; (eexists; split; [reflexivity|]); unfold decode_action4; rds.
  - rewrite lor128 by lia. rewrite flag128_hi by lia. rds.
    rewrite app_nil_r, drop_last_snoc, (Hs _ eq_refl), land127 by lia.
    replace ((a4_lang a + 128) mod 128) with (a4_lang a) by lia.
    rewrite <- Eg. destruct a as [f0 l0 o0 g0 s0]; cbn [a4_feature a4_offset a4_generic a4_strings a4_lang] in *. now rewrite Z.eqb_refl, Hc.
  - rewrite flag128_lo by lia. apply andb_prop in Ev as [Ev Ev2].
    rewrite Ev. rds.
    rewrite app_nil_r, drop_last_snoc, (Hs _ eq_refl), land127 by lia.
    replace (a4_lang a mod 128) with (a4_lang a) by lia.
    rewrite <- Eg. destruct a as [f0 l0 o0 g0 s0]; cbn [a4_feature a4_offset a4_generic a4_strings a4_lang] in *. now rewrite Z.eqb_refl, Hc.
  - rewrite flag128_lo by lia.
    match goal with |- context [bind ?X _] => replace X with
      (Some (a4_offset a, (join0 (a4_strings a) ++ [0]) ++ [])) end.
    2:{ destruct (Z.eq_dec (a4_offset a) 255) as [Ho|Hn].
        - rewrite Ho in *. destruct (is_vehicle (a4_feature a)) eqn:V; [cbn in Ev; discriminate|]. reflexivity.
        - destruct (a4_offset a) as [|p|p]; try reflexivity.
          do 8 (destruct p; try reflexivity). congruence. }
    cbn [bind].
    rewrite app_nil_r, drop_last_snoc, (Hs _ eq_refl), land127 by lia.
    replace (a4_lang a mod 128) with (a4_lang a) by lia.
    rewrite <- Eg. destruct a as [f0 l0 o0 g0 s0]; cbn [a4_feature a4_offset a4_generic a4_strings a4_lang] in *. now rewrite Z.eqb_refl, Hc.
Qed.

(** Action 5, A *)
Lemma land_not128 : forall v, 0 <= v < 128 -> Z.land (v + 128) (Z.lnot 128) = v.
Proof.
  intros. apply Z.bits_inj'. intros k Hk. rewrite Z.land_spec, Z.lnot_spec by lia.
  replace (v + 128) with (Z.lor v (Z.shiftl 1 7)).
  2:{ rewrite lor_shift by (try change (2^7) with 128; lia). change (2^7) with 128. lia. }
  rewrite Z.lor_spec, Z.shiftl_spec by lia.
  change 128 with (2 ^ 7). rewrite Z.pow2_bits_eqb by lia.
  destruct (Z.eqb_spec 7 k) as [<-|Hne].
  - change (Z.eqb 7 7) with true. cbn [negb]. rewrite andb_false_r. symmetry. apply Z.testbit_false; [lia|]. change (2^7) with 128. lia.
  - rewrite andb_true_r. change 1 with (2 ^ 0). rewrite Z.pow2_bits_eqb by lia.
    destruct (Z.eqb_spec 0 (k - 7)); [lia|]. now rewrite orb_false_r.
Qed.

Lemma action5_rt : forall a b, action5_data a = Some b -> 0 <= a5_type a < 128 ->
  exists d, b = 5 :: d /\ decode_action5 d = Some a.
Proof.
  intros [t c o] b H Ht. cbn [a5_type] in Ht. unfold action5_data in H.
  cbn [a5_type a5_offset a5_count] in H.
  destruct o as [o|]; enc_inv H; (eexists; split; [reflexivity|]); unfold decode_action5; rds.
  - rewrite lor128 by lia. rewrite flag128_hi by lia. rds. now rewrite land_not128.
  - rewrite flag128_lo by lia. reflexivity.
Qed.

Lemma rd_set_concat : forall x b r, concat_opt [pack_B (snd x); pack_H (fst x)] = Some b ->
  rd_set (b ++ r) = Some (x, r).
Proof. intros [f n] b r H. cbn [fst snd] in H. enc_inv H. unfold rd_set. rds. reflexivity. Qed.

Lemma actionA_rt : forall s b, actionA_data s = Some b ->
  exists d, b = 10 :: d /\ decode_actionA d = Some s.
Proof.
  intros s b H. unfold actionA_data in H. cbn [concat_opt] in H. inv_opt.
  apply mk_bytes_inv in E as [Hb ->]. cbn [app]. eexists; split; [reflexivity|].
  unfold decode_actionA. rds. rewrite len_nat.
  rewrite <- (app_nil_r v0).
  rewrite (rd_n_concat _ _ rd_set_concat _ _ _ E0). reflexivity.
Qed.

(** Action 6 *)
Lemma action6_loop : forall ps b r fuel, concat_opt (map patch6_data ps) = Some b ->
  (forall p, In p ps -> fst (fst p) <> 255) -> (length ps < fuel)%nat ->
  decode_action6_loop fuel (b ++ 255 :: r) = Some (ps, r).
Proof.
  induction ps as [|[[n s] o] ps IH]; intros b r fuel H Hn Hf; cbn [map concat_opt] in H; inv_opt;
    (destruct fuel as [|fuel]; [cbn in Hf; lia|]).
  - reflexivity.
  - unfold patch6_data in E. enc_inv E. cbn [app decode_action6_loop].
    rds. specialize (Hn _ (or_introl eq_refl)) as Hn0. cbn [fst] in Hn0.
    destruct (n =? 255) eqn:E'; [lia|]. rds.
    rewrite (IH _ r fuel E0); [reflexivity| |cbn in Hf; lia].
    intros; apply Hn; now right.
Qed.

Lemma action6_rt : forall ps b, action6_data ps = Some b ->
  (forall p, In p ps -> fst (fst p) <> 255) ->
  exists d, b = 6 :: d /\ decode_action6 d = Some ps.
Proof.
  intros ps b H Hn. unfold action6_data in H.
  apply concat_app_inv in H as [x [y [Hx [H ->]]]].
  apply concat_app_inv in H as [x2 [y2 [Hp [Hy ->]]]].
  enc_inv Hx. enc_inv Hy. eexists; split; [reflexivity|].
  unfold decode_action6. rewrite (action6_loop ps x2 []); [reflexivity|assumption|assumption|].
  rewrite app_length. cbn [length].
  assert (length x2 = (5 * length ps)%nat); [|lia].
  apply (concat_map_len _ _ _ Hp). intros [[n s] o] c _ Hc. unfold patch6_data in Hc. enc_inv Hc. reflexivity.
Qed.

(** Action 7/9 *)
Lemma le_bytes_len : forall n v, length (le_bytes n v) = n.
Proof. induction n; intros; cbn; [reflexivity|]. now rewrite IHn. Qed.
Lemma le_value_bytes : forall n v, le_value (le_bytes n v) = v mod 2 ^ (8 * Z.of_nat n).
Proof.
  induction n; intros v.
  - cbn [le_bytes le_value]. cbn. now rewrite Z.mod_1_r.
  - cbn [le_bytes le_value]. rewrite IHn.
    change 255 with (Z.ones 8). rewrite Z.land_ones by lia.
    rewrite Z.shiftl_mul_pow2, Z.shiftr_div_pow2 by lia.
    replace (8 * Z.of_nat (S n)) with (8 + 8 * Z.of_nat n) by lia.
    rewrite Z.pow_add_r by lia. change (2 ^ 8) with 256.
    assert (0 < 2 ^ (8 * Z.of_nat n)) by (apply Z.pow_pos_nonneg; lia).
    rewrite Z.rem_mul_r by lia. lia.
Qed.


Lemma action7_rt : forall a b, action7_data a = Some b -> a7_ok a ->
  exists d, b = (if a7_static a then 9 else 7) :: d /\
    decode_action7or9 (a7_static a) d
    = Some (mkA7 (a7_static a) (a7_var a) (Some (a7_size a)) (a7_cond a) (IVInt (a7_number a)) (a7_skip a)).
Proof.
  intros a b H [_ [Hl Hc]]. unfold action7_data in H. inv_opt.
  assert (v = a7_size a) by (unfold a7_size; destruct (a7_varsize a), (a7_value a); congruence).
  subst v. clear E. cbn [concat_opt] in H. inv_opt.
  inv_pack.
  repeat match goal with H : bytesb _ = true |- _ => cbn [bytesb forallb] in H; unfold byteb in H end.
  cbn [app]. eexists; split; [reflexivity|].
  unfold decode_action7or9. rds.
  replace (if a7_cond a <? 2 then 1 else a7_size a) with (a7_size a)
    by (destruct (a7_cond a <? 2) eqn:E; [rewrite Hc by lia; reflexivity|reflexivity]).
  match goal with |- context [rd_n rd_B _ (?x ++ ?y)] =>
    assert (L : length x = Z.to_nat (a7_size a)) end.
  { destruct (a7_value a); [apply le_bytes_len|]. rewrite Hl. unfold len. lia. }
  match goal with |- context [rd_n rd_B _ (?x ++ ?y)] =>
    pose proof (rd_n_bytes x y) as RD; rewrite L in RD; rewrite RD end.
  rds.
  do 3 f_equal. unfold a7_number. destruct (a7_value a); [|reflexivity].
  rewrite le_value_bytes. do 3 f_equal. lia.
Qed.

(** Action 8 *)
Lemma find0_app : forall s d, ~ In 0 s -> find0 (s ++ 0 :: d) = Some (length s).
Proof.
  induction s as [|b s IH]; intros d H; cbn [app find0 length]; [reflexivity|].
  destruct (b =? 0) eqn:E; [exfalso; apply H; left; lia|].
  rewrite IH; [reflexivity|]. intro X; apply H; now right.
Qed.
Lemma firstn_app_len : forall {A} (l r : list A), firstn (length l) (l ++ r) = l.
Proof. intros. rewrite firstn_app, firstn_all, Nat.sub_diag. cbn. apply app_nil_r. Qed.
Lemma skipn_app_len : forall {A} (l r : list A), skipn (length l) (l ++ r) = r.
Proof. intros. rewrite skipn_app, skipn_all, Nat.sub_diag. reflexivity. Qed.
Lemma skipn_S_app : forall {A} (l r : list A) x, skipn (S (length l)) (l ++ x :: r) = r.
Proof. induction l; intros; cbn; [reflexivity|]. apply IHl. Qed.

Lemma action8_rt : forall a b, action8_data a = Some b ->
  length (a8_grfid a) = 4%nat -> ~ In 0 (a8_name a) ->
  exists d, b = 8 :: d /\ decode_action8 d = Some a.
Proof.
  intros [v g n s] b H Hg Hn. cbn [a8_grfid a8_name] in *. unfold action8_data in H.
  cbn [a8_version a8_grfid a8_name a8_desc] in H. cbn [concat_opt] in H. inv_opt. apply mk_bytes_inv in E as [Hb ->].
  cbn [app]. eexists; split; [reflexivity|].
  unfold decode_action8. rewrite app_nil_r, <- Hg, firstn_app_len, skipn_app_len.
  rewrite find0_app, firstn_app_len, skipn_S_app, drop_last_snoc by assumption. reflexivity.
Qed.

(** Action D *)

Lemma rd_I_le : forall b, length b = 4%nat -> bytesb b = true -> rd_I b = Some (le_value b, []).
Proof.
  intros b H Hb. destruct b as [|b0 [|b1 [|b2 [|b3 [|]]]]]; try discriminate.
  repeat match goal with H : bytesb _ = true |- _ => cbn [bytesb forallb] in H; unfold byteb in H end.
  rewrite rd_I_cons by lia. cbn [le_value]. rewrite !Z.shiftl_mul_pow2 by lia.
  change (2 ^ 8) with 256. do 2 f_equal. lia.
Qed.

Lemma actionD_rt : forall a b, actionD_data a = Some b -> ad_ok a ->
  exists d, b = 13 :: d /\ decode_actionD d = Some (ad_norm a).
Proof.
  intros a b H [Hop Hv]. unfold actionD_data in H. cbn [concat_opt] in H. inv_opt.
  apply mk_bytes_inv in E as [Hb ->]. cbn [app]. eexists; split; [reflexivity|].
  assert (Hlor : Z.lor (ad_op a) (128 * Z.b2z (ad_if_undefined a))
          = ad_op a + 128 * Z.b2z (ad_if_undefined a)).
  { destruct (ad_if_undefined a); cbn [Z.b2z].
    - change (128 * 1) with 128. rewrite lor128 by lia. lia.
    - change (128 * 0) with 0. rewrite Z.lor_0_r. lia. }
  rewrite Hlor.
  assert (Hflag : flag (ad_op a + 128 * Z.b2z (ad_if_undefined a)) 128 = ad_if_undefined a).
  { destruct (ad_if_undefined a); cbn [Z.b2z]; [apply flag128_hi|apply flag128_lo]; lia. }
  assert (Hand : Z.land (ad_op a + 128 * Z.b2z (ad_if_undefined a)) 127 = ad_op a).
  { destruct (ad_if_undefined a); cbn [Z.b2z]; rewrite land127 by lia; lia. }
  unfold decode_actionD, ad_norm. rds. rewrite Hflag, Hand.
  destruct (ad_op a <=? 12) eqn:Eop; [|lia].
  destruct ((ad_src1 a =? 255) || (ad_src2 a =? 255)) eqn:Es.
  - destruct (ad_value a) as [|n|r]; inv_opt.
    + inv_pack. cbn [app]. rds. reflexivity.
    + destruct Hv as [Hl Hr]. rewrite app_nil_r, rd_I_le by assumption. reflexivity.
  - cbn [bind]. reflexivity.
Qed.

(** Actions 10, 11, FE *)
Lemma action10_rt : forall a b, action10_data a = Some b ->
  exists d, b = 16 :: d /\ decode_action10 d = Some a.
Proof.
  intros [l c] b H. unfold action10_data in H. cbn [a10_label a10_comment concat_opt] in H. inv_opt.
  apply mk_bytes_inv in E as [_ ->]. cbn [app]. eexists; split; [reflexivity|].
  unfold decode_action10. rds. now rewrite app_nil_r.
Qed.
Lemma action11_rt : forall n b, action11_data n = Some b ->
  exists d, b = 17 :: d /\ decode_action11 d = Some n.
Proof.
  intros n b H. unfold action11_data in H. enc_inv H. eexists; split; [reflexivity|].
  unfold decode_action11. rds. reflexivity.
Qed.
Lemma actionFE_rt : forall a b, actionFE_data a = Some b -> length (afe_grfid a) = 4%nat ->
  exists d, b = 254 :: d /\ decode_actionFE d = Some a.
Proof.
  intros [g n] b H Hg. cbn [afe_grfid] in Hg. unfold actionFE_data in H.
  cbn [afe_grfid afe_number concat_opt] in H. inv_opt. inv_pack. cbn [app].
  eexists; split; [reflexivity|]. unfold decode_actionFE.
  match goal with |- context [0 :: ?x] => change (skipn 5 (0 :: x)) with (skipn 4 x);
    change (skipn 1 (0 :: x)) with x end.
  rewrite <- Hg, skipn_app_len, firstn_app_len. rds. reflexivity.
Qed.
