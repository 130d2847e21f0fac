(** Which records the encoders accept, and the remaining lemmas of PropsRecords.v. *)
From Coq Require Import ZArith List Bool Lia ZifyBool.
From Verif Require Import Base BaseFacts CommonModel CommonProofs RecordsModel SpecRecords RecordsProofs RecordsProofs2.
Import ListNotations.
Open Scope Z_scope.

Ltac packs1 := repeat first [rewrite pack_B_ok by lia | rewrite pack_H_ok by lia | rewrite pack_I_ok by lia].

Lemma concat_app_ex : forall l m, (exists x, concat_opt l = Some x) -> (exists y, concat_opt m = Some y) ->
  exists b, concat_opt (l ++ m) = Some b.
Proof.
  induction l as [|a l IH]; intros m [x Hx] [y Hy]; cbn [app]; [eauto|].
  cbn [concat_opt] in *. inv_opt. destruct (IH m) as [z Hz]; [eauto|eauto|]. rewrite Hz. cbn [bind]. eauto.
Qed.
Lemma concat_map_ex : forall {A} (f : A -> option bytes) l,
  (forall x, In x l -> exists b, f x = Some b) -> exists b, concat_opt (map f l) = Some b.
Proof.
  induction l as [|a l IH]; intro H; cbn [map concat_opt]; [eauto|].
  destruct (H a (or_introl eq_refl)) as [x ->]. destruct IH as [y Hy]; [intros; apply H; now right|].
  cbn [bind]. rewrite Hy. cbn [bind]. eauto.
Qed.
Lemma mk_bytes_ok : forall l, bytesb l = true -> mk_bytes l = Some l.
Proof. intros l H. unfold mk_bytes. now rewrite H. Qed.

Lemma action1_encodable : forall f sets sprites first,
  0 <= f <= 20 -> 0 <= sets < 65536 -> 0 <= sprites < 65536 ->
  (forall x, first = Some x -> 0 <= x < 65536) ->
  exists b, action1_data (mkA1 f sets sprites first) = Some b.
Proof.
  intros f sets sprites first Hf Hs Hp Hx. unfold action1_data.
  cbn [a1_first_set a1_feature a1_set_count a1_sprite_count].
  destruct first as [x|]; [specialize (Hx _ eq_refl)|destruct (sets <=? 255) eqn:E];
    cbn [concat_opt]; packs1; cbn [bind]; eauto.
Qed.

Lemma action1_ambiguous : forall f n b, 0 <= f <= 20 ->
  action1_data (mkA1 f 0 n None) = Some b -> exists d, b = 1 :: d /\ decode_action1 d = None.
Proof.
  intros f n b Hf H. unfold action1_data in H. cbn [a1_first_set a1_feature a1_set_count a1_sprite_count Z.leb Z.compare] in H.
  enc_inv H. eexists; split; [reflexivity|]. unfold decode_action1. rds. reflexivity.
Qed.

Lemma action3_encodable : forall a,
  0 <= a3_feature a <= 20 -> (0 < length (a3_ids a) < 256)%nat -> (length (a3_maps a) < 256)%nat ->
  Forall (fun x => 0 <= x < 65536) (a3_ids a) ->
  Forall (fun kv => 0 <= fst kv < 256 /\ 0 <= get_ref_id (snd kv) < 65536) (a3_maps a) ->
  0 <= get_ref_id (a3_default a) < 65536 ->
  exists b, action3_data a = Some b.
Proof.
  intros [f ids maps dflt wo]; cbn [a3_feature a3_ids a3_maps a3_default]; intros Hf Hi Hm Fi Fm Hd.
  unfold action3_data; cbn [a3_feature a3_ids a3_maps a3_default].
  assert (0 < len ids < 256) by (unfold len; lia).
  assert (0 <= len maps < 256) by (unfold len; lia).
  destruct (len ids =? 0) eqn:E; [lia|].
  destruct (existsb (fun x => 255 <=? x) ids) eqn:Ex.
  - repeat apply concat_app_ex.
    + cbn [concat_opt]; packs1; cbn [bind]; eauto.
    + apply concat_map_ex. intros x Hx. rewrite Forall_forall in Fi. specialize (Fi _ Hx).
      cbn [concat_opt]; packs1; cbn [bind]; eauto.
    + cbn [concat_opt]; packs1; cbn [bind]; eauto.
    + apply concat_map_ex. intros x Hx. rewrite Forall_forall in Fm. specialize (Fm _ Hx).
      cbn [concat_opt]; packs1; cbn [bind]; eauto.
    + cbn [concat_opt]; packs1; cbn [bind]; eauto.
  - repeat apply concat_app_ex.
    + cbn [concat_opt]; packs1; cbn [bind]; eauto.
    + apply concat_map_ex. intros x Hx. rewrite Forall_forall in Fi. specialize (Fi _ Hx).
      assert (x < 255). { destruct (Z_lt_dec x 255) as [l|g]; [assumption|].
        assert (existsb (fun x => 255 <=? x) ids = true); [|congruence].
        apply existsb_exists. exists x; split; [assumption|lia]. }
      packs1; eauto.
    + cbn [concat_opt]; packs1; cbn [bind]; eauto.
    + apply concat_map_ex. intros x Hx. rewrite Forall_forall in Fm. specialize (Fm _ Hx).
      cbn [concat_opt]; packs1; cbn [bind]; eauto.
    + cbn [concat_opt]; packs1; cbn [bind]; eauto.
Qed.

Lemma action4_encodable : forall a, a4_ok a -> (length (a4_strings a) < 256)%nat ->
  exists b, action4_data a = Some b.
Proof.
  intros [f l o g ss] [Hc [Hf [Hl _]]] Hn. unfold action4_ctor in Hc. unfold action4_data.
  cbn [a4_feature a4_lang a4_offset a4_generic a4_strings] in *.
  assert (0 <= len ss < 256) by (unfold len; lia).
  destruct g.
  - rewrite orb_true_r in Hc. rewrite lor128 by lia. cbn [concat_opt]; packs1; cbn [bind]; eauto.
  - rewrite orb_false_r in Hc. destruct (is_vehicle f) eqn:Ev; cbn [andb].
    + destruct (255 <=? o) eqn:Eo; cbn [concat_opt]; packs1; cbn [bind]; eauto.
    + cbn [concat_opt]; packs1; cbn [bind]; eauto.
Qed.

Lemma action5_encodable : forall t n o, 0 <= t < 128 -> 0 <= n < 65536 ->
  (forall x, o = Some x -> 0 <= x < 65536) -> exists b, action5_data (mkA5 t n o) = Some b.
Proof.
  intros t n o Ht Hn Ho. unfold action5_data; cbn [a5_type a5_count a5_offset].
  destruct o as [x|]; [specialize (Ho _ eq_refl); rewrite lor128 by lia|];
    cbn [concat_opt]; packs1; cbn [bind]; eauto.
Qed.

Lemma actionA_encodable : forall sets, (length sets < 256)%nat ->
  Forall (fun s => 0 <= fst s < 65536 /\ 0 <= snd s < 256) sets ->
  exists b, actionA_data sets = Some b.
Proof.
  intros sets Hl F. unfold actionA_data. assert (0 <= len sets < 256) by (unfold len; lia).
  destruct (len sets <=? 255) eqn:E; [|lia].
  change (mk_bytes [10; len sets] :: map (fun s => concat_opt [pack_B (snd s); pack_H (fst s)]) sets)
    with ([mk_bytes [10; len sets]] ++ map (fun s => concat_opt [pack_B (snd s); pack_H (fst s)]) sets).
  apply concat_app_ex.
  - rewrite mk_bytes_ok; [cbn [concat_opt bind]; eauto|]. cbn [bytesb forallb]. unfold byteb. lia.
  - apply concat_map_ex. intros x Hx. rewrite Forall_forall in F. specialize (F _ Hx).
    cbn [concat_opt]; packs1; cbn [bind]; eauto.
Qed.

Lemma action6_encodable : forall ps,
  Forall (fun p => 0 <= fst (fst p) < 256 /\ 0 <= snd (fst p) < 256 /\ 0 <= snd p < 65536) ps ->
  exists b, action6_data ps = Some b.
Proof.
  intros ps F. unfold action6_data. repeat apply concat_app_ex.
  - cbn; eauto.
  - apply concat_map_ex. intros [[n s] o] Hx. rewrite Forall_forall in F. specialize (F _ Hx). cbn [fst snd] in F.
    unfold patch6_data. cbn [concat_opt]; packs1; cbn [bind]; eauto.
  - cbn; eauto.
Qed.

Lemma action7_encodable : forall a, a7_ok a ->
  0 <= a7_var a < 256 -> 0 <= a7_cond a < 256 -> 0 <= a7_skip a < 256 -> 0 <= a7_size a < 256 ->
  exists b, action7_data a = Some b.
Proof.
  intros [st v n c x k] [Hct [Hl Hc]] Hv Hcd Hs Hz. unfold a7_size, action7_ctor in *. unfold action7_data.
  cbn [a7_static a7_var a7_varsize a7_cond a7_value a7_skip] in *.
  assert (forall s, 0 <= s < 256 -> exists b, concat_opt [mk_bytes [if st then 9 else 7; v; s; c];
              Some (match x with IVBytes b => b | IVInt n => le_bytes (Z.to_nat s) n end);
              mk_bytes [k]] = Some b) as G.
  { intros s Hs'. cbn [concat_opt]. rewrite !mk_bytes_ok; [cbn [bind]; eauto| |];
    cbn [bytesb forallb]; unfold byteb; destruct st; lia. }
  destruct n as [n|]; [cbn [bind]; apply G; lia|].
  destruct x as [x|x]; [discriminate|]. cbn [bind]. apply G; lia.
Qed.

Lemma actionD_encodable : forall t op u s1 s2 v,
  0 <= t < 256 -> 0 <= op <= 12 -> 0 <= s1 < 256 -> 0 <= s2 < 256 -> 0 <= v < 2 ^ 32 ->
  exists b, actionD_data (mkAD t op u s1 s2 (DVNum v)) = Some b.
Proof.
  intros t op u s1 s2 v Ht Ho H1 H2 Hv. change (2 ^ 32) with 4294967296 in Hv. unfold actionD_data.
  cbn [ad_target ad_op ad_if_undefined ad_src1 ad_src2 ad_value concat_opt].
  assert (0 <= Z.lor op (128 * Z.b2z u) < 256).
  { destruct u; cbn [Z.b2z].
    - change (128 * 1) with 128. rewrite lor128 by lia. lia.
    - change (128 * 0) with 0. rewrite Z.lor_0_r. lia. }
  rewrite mk_bytes_ok by (cbn [bytesb forallb]; unfold byteb; lia). cbn [bind].
  destruct ((s1 =? 255) || (s2 =? 255)); packs1; cbn [bind]; eauto.
Qed.

Lemma small_encodable : forall n,
  (0 <= n < 256 -> forall g nm ds, exists b, action8_data (mkA8 n g nm ds) = Some b) /\
  (0 <= n < 256 -> forall c, exists b, action10_data (mkA10 n c) = Some b) /\
  (0 <= n < 65536 -> exists b, action11_data n = Some b) /\
  (0 <= n < 65536 -> forall g, exists b, actionFE_data (mkAFE g n) = Some b).
Proof.
  intro n. repeat split; intros.
  - unfold action8_data. cbn [a8_version concat_opt].
    rewrite mk_bytes_ok by (cbn [bytesb forallb]; unfold byteb; lia). cbn [bind]; eauto.
  - unfold action10_data. cbn [a10_label a10_comment concat_opt].
    rewrite mk_bytes_ok by (cbn [bytesb forallb]; unfold byteb; lia). cbn [bind].
    destruct ((0 <=? n) && (n <=? 255)) eqn:E; [eauto|lia].
  - unfold action11_data. cbn [concat_opt]; packs1; cbn [bind]; eauto.
  - unfold actionFE_data. cbn [concat_opt afe_number]; packs1; cbn [bind]; eauto.
Qed.

Lemma recompile : forall d, bytesb d = true ->
  (forall a, decode_action1 d = Some a -> exists d', action1_data a = Some (1 :: d') /\ decode_action1 d' = Some a) /\
  (forall a, decode_action4 d = Some a -> exists d', action4_data a = Some (4 :: d') /\ decode_action4 d' = Some a) /\
  (forall a, decode_action5 d = Some a -> exists d', action5_data a = Some (5 :: d') /\ decode_action5 d' = Some a) /\
  (forall a, decode_action6 d = Some a -> exists d', action6_data a = Some (6 :: d') /\ decode_action6 d' = Some a) /\
  (forall s a, decode_action7or9 s d = Some a -> exists d', action7_data a = Some ((if s then 9 else 7) :: d') /\ decode_action7or9 s d' = Some a) /\
  (forall a, decode_actionA d = Some a -> exists d', actionA_data a = Some (10 :: d') /\ decode_actionA d' = Some a) /\
  (forall a, decode_actionD d = Some a -> exists d', actionD_data a = Some (13 :: d') /\ decode_actionD d' = Some a).
Proof.
  intros d Hd. repeat split; intros.
  - destruct (action1_re _ _ Hd H) as [b [E [d' [-> H']]]]; eauto.
  - destruct (action4_re _ _ Hd H) as [b [E [d' [-> H']]]]; eauto.
  - destruct (action5_re _ _ Hd H) as [b [E [d' [-> H']]]]; eauto.
  - destruct (action6_re _ _ Hd H) as [b [E [d' [-> H']]]]; eauto.
  - destruct (action7_re _ _ _ Hd H) as [b [E [d' [-> H']]]]; eauto.
  - destruct (actionA_re _ _ Hd H) as [b [E [d' [-> H']]]]; eauto.
  - destruct (actionD_re _ _ Hd H) as [b [E [d' [-> H']]]]; eauto.
Qed.

Lemma actionB_text_lost : forall a t b, ab_message a = MText t -> actionB_data a = Some b ->
  exists d, b = 11 :: d /\ forall a', decode_actionB d = Some a' -> ab_message a' <> ab_message a.
Proof.
  intros a t b Hm H. unfold actionB_data in H. rewrite Hm in H. cbn [concat_opt] in H. inv_opt. inv_pack.
  cbn [app]. eexists; split; [reflexivity|]. intros a' HD. rename HD into H'. unfold decode_actionB in H'.
  repeat (rewrite rd_B_cons in H'; cbn [bind] in H'). change (negb (255 =? 255)) with false in H'. cbv beta iota in H'.
  rewrite Hm.
  match type of H' with (let '(_, _) := ?p in _) = _ => destruct p as [tp ps] end.
  inv_opt. cbn [ab_message]. discriminate.
Qed.

Lemma action12_lost : forall d g, decode_action12 d = Some g -> g = [].
Proof. intros d g H. unfold decode_action12 in H. inv_opt. unfold action12_ctor in H. inv_opt. reflexivity. Qed.
