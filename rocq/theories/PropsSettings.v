(** C80: the global train settings and engine overrides. *)
From Coq Require Import ZArith List Bool Lia String.
From Verif Require Import Base BaseFacts RecordsModel PropModel Action0Model SettingsModel SpecSettings.
Import ListNotations.
Open Scope string_scope.
Open Scope list_scope.
Open Scope Z_scope.

(** The records of a list of settings. *)
Definition records (fs : list (option actionD)) : list (option bytes) :=
  map (fun a => do a <- a; actionD_data a) fs.

Lemma flag_value f : 0 <= f <= 31 -> 0 <= Z.shiftl 1 f < 4294967296.
Proof.
  intros H. rewrite Z.shiftl_1_l. split; [apply Z.pow_nonneg; lia|].
  change 4294967296 with (2 ^ 32). apply Z.pow_lt_mono_r; lia.
Qed.

Lemma pack_I_le v : 0 <= v < 4294967296 -> exists a b c d, pack_I v = Some [a; b; c; d] /\ le32 a b c d = v.
Proof.
  intros H. unfold pack_I. assert ((0 <=? v) && (v <? 4294967296) = true) as ->
    by (rewrite andb_true_iff, Z.leb_le, Z.ltb_lt; lia).
  do 4 eexists. split; [reflexivity|]. unfold le32. Z.to_euclidean_division_equations. lia.
Qed.

Lemma flag_record f : 0 <= f <= 31 -> exists a b c d,
  (do a <- misc_flag f; actionD_data a) = Some [13; 158; 8; 158; 255; a; b; c; d]
  /\ le32 a b c d = Z.shiftl 1 f.
Proof.
  intros H. unfold misc_flag. assert (0 <=? f = true) as -> by (apply Z.leb_le; lia). cbn [bind].
  destruct (pack_I_le _ (flag_value f H)) as (a & b & c & d & E & L). exists a, b, c, d. split; [|exact L].
  unfold actionD_data. cbn [ad_op ad_if_undefined ad_src1 ad_src2 ad_target ad_value].
  change ((158 =? 255) || (255 =? 255)) with true. cbn iota. rewrite E. reflexivity.
Qed.

(** Any list of flags, in any order and with repetitions: each makes one
    record, and after the engine has executed all of them exactly the bits
    named, and those that were set before, are set in parameter 9E; no other
    parameter changes. *)
Theorem C80_flags : forall flags, Forall (fun f => 0 <= f <= 31) flags ->
  exists rs, records (map misc_flag flags) = map Some rs /\
  forall before,
    (exists after, sets_all rs before after) /\
    forall after, sets_all rs before after ->
      (forall x, x <> 158 -> after x = before x) /\
      forall i, 0 <= i ->
        Z.testbit (after 158) i = Z.testbit (before 158) i || existsb (Z.eqb i) flags.
Proof.
  induction flags as [|f fs IH]; intros F.
  - exists []. split; [reflexivity|]. intros p. split.
    + exists p. constructor. reflexivity.
    + intros q S. inversion S as [? ? H|]; subst. split; [intros x _; apply H|].
      intros i _. rewrite H. cbn. rewrite orb_false_r. reflexivity.
  - inversion F as [|? ? Hf Fs]; subst. destruct (IH Fs) as (rs & E & P).
    destruct (flag_record f Hf) as (a & b & c & d & R & L).
    exists ([13; 158; 8; 158; 255; a; b; c; d] :: rs). split.
    + cbn [map records]. unfold records in *. cbn [map]. rewrite R. f_equal. exact E.
    + intros p.
      set (p1 := fun x => if x =? 158 then Z.lor (p 158) (Z.shiftl 1 f) else p x).
      assert (S1 : sets [13; 158; 8; 158; 255; a; b; c; d] p p1).
      { apply or_value; [lia|unfold p1; rewrite Z.eqb_refl, L; reflexivity|].
        intros x N. unfold p1. apply Z.eqb_neq in N. rewrite N. reflexivity. }
      split.
      * destruct (P p1) as [[q S] _]. exists q. econstructor; [exact S1|exact S].
      * intros q S. inversion S as [|? ? ? p' ? Sr Ss]; subst.
        inversion Sr; subst.
        destruct (P p') as [_ Q]. destruct (Q q Ss) as [O B].
        split; [intros x N; rewrite (O x N); auto|].
        intros i I. rewrite (B i I).
        match goal with H : p' 158 = Z.lor _ _ |- _ => rewrite H end. rewrite L.
        rewrite Z.lor_spec, Z.shiftl_1_l, Z.pow2_bits_eqb by lia. cbn [existsb].
        rewrite (Z.eqb_sym f i). rewrite <- orb_assoc. reflexivity.
Qed.

(** No other number can be written. *)
Theorem C80_flag_range : forall f, ~ 0 <= f <= 31 -> (do a <- misc_flag f; actionD_data a) = None.
Proof.
  intros f N. unfold misc_flag. destruct (0 <=? f) eqn:E; [|reflexivity]. apply Z.leb_le in E.
  cbn [bind]. unfold actionD_data. cbn [ad_op ad_if_undefined ad_src1 ad_src2 ad_target ad_value].
  change ((158 =? 255) || (255 =? 255)) with true. cbn iota.
  assert (pack_I (Z.shiftl 1 f) = None) as ->; [|reflexivity].
  unfold pack_I. assert (Z.shiftl 1 f <? 4294967296 = false) as ->; [|rewrite andb_false_r; reflexivity].
  apply Z.ltb_ge. rewrite Z.shiftl_1_l. change 4294967296 with (2 ^ 32). apply Z.pow_le_mono_r; lia.
Qed.

(** The named flags are the documented bits. *)
Theorem C80_flag_names :
  [DESERT_TREES_AND_FIELDS; DESERT_PAVEMENT_AND_LIGHTS; FIELDS_BOUNDING_BOX; DEPOT_FULL_TRAIN_WIDTH;
   AMBIENT_SOUND_CB; THIRD_TRACK_CATENARIES; SECOND_ROCKY_SET; TTDPATCH_FLAG] = [0; 1; 2; 3; 4; 5; 6; 31].
Proof. reflexivity. Qed.

(** The depot offset becomes parameter 8E, whatever it was before. *)
Theorem C80_depot : forall offset, 0 <= offset < 4294967296 ->
  exists r, actionD_data (depot_y_offset offset) = Some r /\
  forall before after, sets r before after ->
    after 142 = offset /\ forall x, x <> 142 -> after x = before x.
Proof.
  intros n H. destruct (pack_I_le n H) as (a & b & c & d & E & L).
  exists [13; 142; 0; 255; 255; a; b; c; d]. split.
  - unfold actionD_data, depot_y_offset. cbn [ad_op ad_if_undefined ad_src1 ad_src2 ad_target ad_value].
    change ((255 =? 255) || (255 =? 255)) with true. cbn iota. rewrite E. reflexivity.
  - intros p q S. inversion S; subst. auto.
Qed.
(** It cannot be negative, although the setting is a signed offset. *)
Theorem C80_depot_negative_refuted : forall offset, offset < 0 -> actionD_data (depot_y_offset offset) = None.
Proof.
  intros n H. unfold actionD_data, depot_y_offset. cbn [ad_op ad_if_undefined ad_src1 ad_src2 ad_target ad_value].
  change ((255 =? 255) || (255 =? 255)) with true. cbn iota.
  assert (pack_I n = None) as ->; [|reflexivity].
  unfold pack_I. assert (0 <=? n = false) as -> by (apply Z.leb_gt; lia). reflexivity.
Qed.

(** An engine override says exactly which NewGRF replaces the engines of which;
    without a source it is the NewGRF that is being written. *)
Theorem C80_override : forall grfid target source,
  List.length grfid = 4%nat -> List.length target = 4%nat ->
  (match source with Some s => List.length s = 4%nat | None => True end) ->
  (do a <- engine_override grfid (LBytes target) (option_map LBytes source); define_data a)
  = Some (override_record (match source with Some s => s | None => grfid end) target).
Proof.
  intros g t s G T S.
  assert (X : forall src, List.length src = 4%nat ->
    (do a <- define_init (mkDef 8 0 1 [("grfid_overrides", [VLabels [LBytes src; LBytes t] true])]); define_data a)
    = Some (override_record src t)).
  { intros src L. do 5 (destruct src as [|? src]; try discriminate L).
    do 5 (destruct t as [|? t]; try discriminate T). reflexivity. }
  destruct s as [s|]; [exact (X s S)|exact (X g G)].
Qed.
(** A label given as a number is the four bytes of that number, lowest first. *)
Theorem C80_override_numbers : forall grfid s t, 0 <= s < 4294967296 -> 0 <= t < 4294967296 ->
  exists a b c d a' b' c' d',
  (do x <- engine_override grfid (LInt t) (Some (LInt s)); define_data x)
  = Some (override_record [a; b; c; d] [a'; b'; c'; d']) /\ le32 a b c d = s /\ le32 a' b' c' d' = t.
Proof.
  intros g s t S T. destruct (pack_I_le s S) as (a & b & c & d & E & L).
  destruct (pack_I_le t T) as (a' & b' & c' & d' & E' & L').
  exists a, b, c, d, a', b', c', d'. split; [|auto].
  unfold engine_override. set (x := define_init _).
  assert (x = Some (mkDef 8 0 1 [("grfid_overrides", [VLabels [LInt s; LInt t] true])])) as -> by reflexivity.
  cbn [bind].
  transitivity (do l <- concat_opt [pack_I s; pack_I t]; Some ([0; 8; 1; 1; 255; 0; 0; 17] ++ l)).
  - unfold define_data. cbn [df_feature df_props df_count df_first map]. unfold encode_prop. cbn [fst snd].
    change (by_name 8 "grfid_overrides") with (Some (17, F2L)). cbn [bind].
    change (Z.to_nat 1) with 1%nat. cbn [encode_values]. cbn [encode_value].
    change (len [LInt s; LInt t] =? 2) with true. cbn iota. cbn [map encode_label].
    rewrite E, E'. reflexivity.
  - rewrite E, E'. reflexivity.
Qed.

(** ** Cases that meet the hypotheses *)
Example C80_case : records (map misc_flag [5; 3; 5]) =
  [Some [13; 158; 8; 158; 255; 32; 0; 0; 0]; Some [13; 158; 8; 158; 255; 8; 0; 0; 0];
   Some [13; 158; 8; 158; 255; 32; 0; 0; 0]].
Proof. reflexivity. Qed.
Example C80_case_depot : actionD_data (depot_y_offset 3) = Some [13; 142; 0; 255; 255; 3; 0; 0; 0].
Proof. reflexivity. Qed.
Example C80_case_override : (do a <- engine_override [65;66;67;68] (LInt 1) None; define_data a)
  = Some [0; 8; 1; 1; 255; 0; 0; 17; 65; 66; 67; 68; 1; 0; 0; 0].
Proof. reflexivity. Qed.

Print Assumptions C80_flags.
Print Assumptions C80_flag_range.
Print Assumptions C80_flag_names.
Print Assumptions C80_depot.
Print Assumptions C80_depot_negative_refuted.
Print Assumptions C80_override.
Print Assumptions C80_override_numbers.
