(** Theorems for C07, C13-C20, C49-C51: the fixed-layout action records.
    [bytes written] = action byte :: data; decoders get the data. *)
From Coq Require Import ZArith List Bool Lia ZifyBool.
From Verif Require Import Base BaseFacts CommonModel CommonProofs RecordsModel SpecRecords RecordsProofs
  RecordsProofs2 Action14Model SpecAction14 Action14Proofs EncodableProofs.
Import ListNotations.
Open Scope Z_scope.

(** ** C07: Action 1 *)
Theorem C07_action1_roundtrip : forall a b, action1_data a = Some b -> a1_ok a ->
  exists d, b = 1 :: d /\ decode_action1 d = Some (a1_norm a).
Proof. exact action1_rt. Qed.

Theorem C07_action1_encodable : forall f sets sprites first,
  0 <= f <= 20 -> 0 <= sets < 65536 -> 0 <= sprites < 65536 ->
  (forall x, first = Some x -> 0 <= x < 65536) ->
  exists b, action1_data (mkA1 f sets sprites first) = Some b.
Proof. exact action1_encodable. Qed.

(** The excluded header (no sets, no first set) is read differently, whatever
    the number of sprites per set. *)
Theorem C07_ambiguous_refuted : forall f n b, 0 <= f <= 20 ->
  action1_data (mkA1 f 0 n None) = Some b ->
  exists d, b = 1 :: d /\ decode_action1 d = None.
Proof. exact action1_ambiguous. Qed.

Example C07_example :
  action1_data (mkA1 4 300 2 None) = Some [1; 4; 0; 255; 0; 0; 255; 44; 1; 255; 2; 0]
  /\ a1_ok (mkA1 4 300 2 None) /\ a1_norm (mkA1 4 300 2 None) = mkA1 4 300 2 (Some 0)
  /\ a1_norm (mkA1 4 3 8 None) = mkA1 4 3 8 None.
Proof. repeat split; cbn; lia. Qed.

(** ** C13: Action 3.  Full statement: [a3_wagon_override] is kept as well; it
    is not (see the refuted statement), and id lists of 128 or more are read
    wrongly. *)
Theorem C13_action3_roundtrip_partial : forall a b, action3_data a = Some b -> a3_ok a ->
  exists d, b = 3 :: d /\ decode_action3 d = Some (a3_norm a).
Proof. exact action3_rt. Qed.

Theorem C13_action3_encodable : forall a,
  0 <= a3_feature a <= 20 -> (0 < length (a3_ids a) < 256)%nat -> (length (a3_maps a) < 256)%nat ->
  Forall (fun x => 0 <= x < 65536) (a3_ids a) ->
  Forall (fun kv => 0 <= fst kv < 256 /\ 0 <= get_ref_id (snd kv) < 65536) (a3_maps a) ->
  0 <= get_ref_id (a3_default a) < 65536 ->
  exists b, action3_data a = Some b.
Proof. exact action3_encodable. Qed.

Theorem C13_wagon_override_refuted : exists a b d,
  a3_ok a /\ a3_wagon_override a = true /\ action3_data a = Some b /\ b = 3 :: d
  /\ (forall a', decode_action3 d = Some a' -> a3_wagon_override a' = false)
  /\ action3_data (mkA3 (a3_feature a) (a3_ids a) (a3_maps a) (a3_default a) false) = Some b.
Proof.
  eexists (mkA3 0 [5] [] (RRef 7) true), _, _.
  split; [|split; [|split; [|split; [|split]]]]; try reflexivity.
  - repeat split; cbn; try lia. constructor.
  - intros a' H. vm_compute in H. injection H as <-. reflexivity.
Qed.

(** 128 ids: the count byte reads as an override of 0 ids. *)
Theorem C13_many_ids_refuted : exists a d, length (a3_ids a) = 128%nat /\
  action3_data a = Some (3 :: d) /\
  (decode_action3 d = None \/ exists a', decode_action3 d = Some a' /\ a3_ids a' = []).
Proof.
  exists (mkA3 0 (repeat 7 128) [] (RRef 7) false). eexists. split; [reflexivity|].
  split; [vm_compute; reflexivity|]. right. eexists. split; [vm_compute; reflexivity|reflexivity].
Qed.

(** A record without ids and with a reference as default cannot be written. *)
Theorem C13_no_ids_refuted : forall f maps v wo, action3_data (mkA3 f [] maps (RRef v) wo) = None.
Proof. reflexivity. Qed.

Example C13_example :
  let a := mkA3 0 [1; 300] [(255, RInt 4); (3, RAct 9)] (RRef 7) false in
  a3_ok a /\ action3_data a = Some [3; 0; 2; 255; 1; 0; 255; 44; 1; 2; 255; 4; 128; 3; 9; 0; 7; 0].
Proof. repeat split; cbn; try lia. repeat constructor; cbn; intuition lia. Qed.

(** ** C14: Action 4 *)
Theorem C14_action4_roundtrip : forall a b, action4_data a = Some b -> a4_ok a ->
  exists d, b = 4 :: d /\ decode_action4 d = Some a.
Proof. exact action4_rt. Qed.

Theorem C14_action4_encodable : forall a, a4_ok a -> (length (a4_strings a) < 256)%nat ->
  exists b, action4_data a = Some b.
Proof. exact action4_encodable. Qed.

(** An empty list of strings is written but cannot be read. *)
Theorem C14_empty_refuted : exists a d, action4_ctor a = true /\ a4_strings a = [] /\
  action4_data a = Some (4 :: d) /\ decode_action4 d = None.
Proof. exists (mkA4 7 127 0 false []). eexists. repeat split. Qed.

Example C14_example :
  let a := mkA4 1 127 300 false [[65; 66]; []; [67]] in
  a4_ok a /\ action4_data a = Some [4; 1; 127; 3; 255; 44; 1; 65; 66; 0; 0; 67; 0].
Proof. repeat split; cbn; try lia; try congruence. intros s [<-|[<-|[<-|[]]]]; cbn; lia. Qed.

(** ** C15: Action 5 and Action A *)
Theorem C15_action5_roundtrip : forall a b, action5_data a = Some b -> 0 <= a5_type a < 128 ->
  exists d, b = 5 :: d /\ decode_action5 d = Some a.
Proof. exact action5_rt. Qed.

Theorem C15_action5_encodable : forall t n o, 0 <= t < 128 -> 0 <= n < 65536 ->
  (forall x, o = Some x -> 0 <= x < 65536) -> exists b, action5_data (mkA5 t n o) = Some b.
Proof. exact action5_encodable. Qed.

Theorem C15_actionA_roundtrip : forall sets b, actionA_data sets = Some b ->
  exists d, b = 10 :: d /\ decode_actionA d = Some sets.
Proof. exact actionA_rt. Qed.

Theorem C15_actionA_encodable : forall sets, (length sets < 256)%nat ->
  Forall (fun s => 0 <= fst s < 65536 /\ 0 <= snd s < 256) sets ->
  exists b, actionA_data sets = Some b.
Proof. exact actionA_encodable. Qed.

Example C15_example :
  action5_data (mkA5 4 48 (Some 260)) = Some [5; 132; 255; 48; 0; 255; 4; 1]
  /\ actionA_data [(1500, 3); (2, 255)] = Some [10; 2; 3; 220; 5; 255; 2; 0].
Proof. split; reflexivity. Qed.

(** ** C16: Action 6; parameter number 255 is the terminator *)
Theorem C16_action6_roundtrip : forall ps b, action6_data ps = Some b ->
  (forall p, In p ps -> fst (fst p) <> 255) ->
  exists d, b = 6 :: d /\ decode_action6 d = Some ps.
Proof. exact action6_rt. Qed.

Theorem C16_action6_encodable : forall ps,
  Forall (fun p => 0 <= fst (fst p) < 256 /\ 0 <= snd (fst p) < 256 /\ 0 <= snd p < 65536) ps ->
  exists b, action6_data ps = Some b.
Proof. exact action6_encodable. Qed.

Theorem C16_parameter_255_refuted : exists ps d, action6_data ps = Some (6 :: d) /\
  decode_action6 d = Some [] /\ length ps = 2%nat.
Proof. exists [(255, 4, 9); (1, 2, 3)]. eexists. repeat split. Qed.

Example C16_example : action6_data [(0, 132, 300); (7, 1, 2)]
  = Some [6; 0; 132; 255; 44; 1; 7; 1; 255; 2; 0; 255].
Proof. reflexivity. Qed.

(** ** C17: Action 7/9.  [a7_number a] is the value modulo the field size. *)
Theorem C17_action7_roundtrip : forall a b, action7_data a = Some b -> a7_ok a ->
  exists d, b = (if a7_static a then 9 else 7) :: d /\
    decode_action7or9 (a7_static a) d
    = Some (mkA7 (a7_static a) (a7_var a) (Some (a7_size a)) (a7_cond a) (IVInt (a7_number a)) (a7_skip a)).
Proof. exact action7_rt. Qed.

Theorem C17_value_kept : forall st var n cond v skip,
  0 <= n -> 0 <= v < 2 ^ (8 * n) -> a7_number (mkA7 st var (Some n) cond (IVInt v) skip) = v.
Proof. intros. unfold a7_number, a7_size. cbn [a7_value a7_varsize]. now apply Z.mod_small. Qed.

Theorem C17_action7_encodable : forall a, a7_ok a ->
  0 <= a7_var a < 256 -> 0 <= a7_cond a < 256 -> 0 <= a7_skip a < 256 -> 0 <= a7_size a < 256 ->
  exists b, action7_data a = Some b.
Proof. exact action7_encodable. Qed.

(** A bit test (condition 0 or 1) written with another size than 1 is misread. *)
Theorem C17_bit_test_size_refuted : exists a d a', a7_cond a < 2 /\ action7_ctor a = true /\
  action7_data a = Some (7 :: d) /\ decode_action7or9 false d = Some a' /\ a7_skip a' <> a7_skip a.
Proof.
  exists (mkA7 false 133 (Some 4) 0 (IVInt 3) 9). eexists _, _. repeat split; try (cbn; lia).
Qed.

Example C17_example :
  let a := mkA7 true 136 None 6 (IVBytes [71; 82; 70; 1]) 5 in
  a7_ok a /\ action7_data a = Some [9; 136; 4; 6; 71; 82; 70; 1; 5] /\
  a7_number a = 71 + 256 * 82 + 65536 * 70 + 16777216.
Proof. repeat split; cbn; lia. Qed.

(** ** C18: Action D *)
Theorem C18_actionD_roundtrip : forall a b, actionD_data a = Some b -> ad_ok a ->
  exists d, b = 13 :: d /\ decode_actionD d = Some (ad_norm a).
Proof. exact actionD_rt. Qed.

Theorem C18_actionD_encodable : forall t op u s1 s2 v,
  0 <= t < 256 -> 0 <= op <= 12 -> 0 <= s1 < 256 -> 0 <= s2 < 256 -> 0 <= v < 2 ^ 32 ->
  exists b, actionD_data (mkAD t op u s1 s2 (DVNum v)) = Some b.
Proof. exact actionD_encodable. Qed.

Example C18_example :
  let a := mkAD 1 3 true 255 2 (DVNum 4000000000) in
  ad_ok a /\ ad_norm a = a /\ actionD_data a = Some [13; 1; 131; 255; 2; 0; 40; 107; 238].
Proof. repeat split; cbn; lia. Qed.

(** ** C19: Action 14 *)
Theorem C19_action14_roundtrip : forall l d, tree l d ->
  exists b, action14_data l = Some (20 :: b) /\ decode_action14 b = Some d.
Proof. exact action14_rt. Qed.

Example C19_example : exists d, tree
  [(KRaw [73;78;70;79], PDict [(KRaw [78;65;77;69], PPairs [(0, [65]); (1, [])]);
                               (KRaw [86;82;83;78], PInt 300)]);
   (KInt 5, PList [PBytes [1;2;3]; PText 2 [66]])] d
  /\ d = [([73;78;70;79], DDict [([78;65;77;69], DList [IText 0 [65]; IText 1 []]);
                                 ([86;82;83;78], DList [IBin [44;1;0;0]])]);
          ([5;0;0;0], DList [IBin [1;2;3]; IText 2 [66]])].
Proof.
  eexists. split; [|reflexivity].
  apply tr_dict with (k := KRaw [73;78;70;79]); [reflexivity| | |].
  - apply tr_leaf with (k := KRaw [78;65;77;69]); [reflexivity| | |].
    + apply (li_pairs [(0, [65]); (1, [])]). repeat constructor; cbn; lia.
    + apply tr_leaf with (k := KRaw [86;82;83;78]); [reflexivity| | |].
      * apply (li_int 300). lia.
      * constructor.
      * intros [].
    + cbn. intros [H|[]]; discriminate H.
  - apply tr_leaf with (k := KInt 5); [cbn; lia| |constructor|intros []].
    apply (li_cons (PBytes [1;2;3]) [PText 2 [66]] [IBin [1;2;3]] [IText 2 [66]]).
    + apply li_bin. cbn. lia.
    + apply (li_cons (PText 2 [66]) [] [IText 2 [66]] []); [|constructor].
      apply li_text. split; [lia|]. cbn; lia.
  - cbn. intros [H|[]]; discriminate H.
Qed.

(** ** C20: Actions 8, 10, 11, FE; Action C is refuted *)
Theorem C20_action8_roundtrip : forall a b, action8_data a = Some b ->
  length (a8_grfid a) = 4%nat -> ~ In 0 (a8_name a) ->
  exists d, b = 8 :: d /\ decode_action8 d = Some a.
Proof. exact action8_rt. Qed.
Theorem C20_action10_roundtrip : forall a b, action10_data a = Some b ->
  exists d, b = 16 :: d /\ decode_action10 d = Some a.
Proof. exact action10_rt. Qed.
Theorem C20_action11_roundtrip : forall n b, action11_data n = Some b ->
  exists d, b = 17 :: d /\ decode_action11 d = Some n.
Proof. exact action11_rt. Qed.
Theorem C20_actionFE_roundtrip : forall a b, actionFE_data a = Some b -> length (afe_grfid a) = 4%nat ->
  exists d, b = 254 :: d /\ decode_actionFE d = Some a.
Proof. exact actionFE_rt. Qed.
Theorem C20_small_encodable : forall n,
  (0 <= n < 256 -> forall g nm ds, exists b, action8_data (mkA8 n g nm ds) = Some b) /\
  (0 <= n < 256 -> forall c, exists b, action10_data (mkA10 n c) = Some b) /\
  (0 <= n < 65536 -> exists b, action11_data n = Some b) /\
  (0 <= n < 65536 -> forall g, exists b, actionFE_data (mkAFE g n) = Some b).
Proof. exact small_encodable. Qed.
(** A comment is written as twelve zero bytes and the text: it reads as action 0. *)
Theorem C20_comment_refuted : forall text, exists d,
  actionC_data text = Some (0 :: d) /\ decode_actionC d <> Some text.
Proof.
  intro t. eexists. split; [reflexivity|]. unfold decode_actionC. intro H.
  apply some_inj in H. apply (f_equal (@length Z)) in H. revert H. cbn [app repeat length]. rewrite ?app_length. cbn. lia.
Qed.
Example C20_example :
  action8_data (mkA8 8 [71;82;70;1] [65] [66;67]) = Some [8; 8; 71;82;70;1; 65; 0; 66; 67; 0]
  /\ actionFE_data (mkAFE [1;2;3;4] 300) = Some [254; 0; 1;2;3;4; 44; 1].
Proof. split; reflexivity. Qed.

(** ** C49: what the decompiler reads from a record can be written again and
    is read as the same thing. *)
Theorem C49_recompile : forall d, bytesb d = true ->
  (forall a, decode_action1 d = Some a -> exists d', action1_data a = Some (1 :: d') /\ decode_action1 d' = Some a) /\
  (forall a, decode_action4 d = Some a -> exists d', action4_data a = Some (4 :: d') /\ decode_action4 d' = Some a) /\
  (forall a, decode_action5 d = Some a -> exists d', action5_data a = Some (5 :: d') /\ decode_action5 d' = Some a) /\
  (forall a, decode_action6 d = Some a -> exists d', action6_data a = Some (6 :: d') /\ decode_action6 d' = Some a) /\
  (forall s a, decode_action7or9 s d = Some a -> exists d', action7_data a = Some ((if s then 9 else 7) :: d') /\ decode_action7or9 s d' = Some a) /\
  (forall a, decode_actionA d = Some a -> exists d', actionA_data a = Some (10 :: d') /\ decode_actionA d' = Some a) /\
  (forall a, decode_actionD d = Some a -> exists d', actionD_data a = Some (13 :: d') /\ decode_actionD d' = Some a).
Proof. exact recompile. Qed.

(** ** C50: error messages (Action B) are misread: a text message is returned
    as the number 255, a built-in message as a text. *)
Theorem C50_actionB_refuted : exists a d a', actionB_ctor a = true /\
  actionB_data a = Some (11 :: d) /\ decode_actionB d = Some a' /\ ab_message a' <> ab_message a.
Proof.
  exists (mkAB 3 127 (MText [65]) None []). eexists _, _. repeat split. discriminate.
Qed.
Theorem C50_actionB_text_refuted : forall a t b, ab_message a = MText t -> actionB_data a = Some b ->
  exists d, b = 11 :: d /\ forall a', decode_actionB d = Some a' -> ab_message a' <> ab_message a.
Proof. exact actionB_text_lost. Qed.

(** ** C51: font glyph records (Action 12) lose every glyph. *)
Theorem C51_action12_refuted : forall d g, decode_action12 d = Some g -> g = [].
Proof. exact action12_lost. Qed.
Theorem C51_action12_build_refuted : forall glyphs g, action12_ctor glyphs = Some g ->
  action12_data g = Some [18; 0].
Proof. intros glyphs g H. unfold action12_ctor in H. inv_opt. reflexivity. Qed.

Print Assumptions C07_action1_roundtrip.
Print Assumptions C07_action1_encodable.
Print Assumptions C07_ambiguous_refuted.
Print Assumptions C13_action3_roundtrip_partial.
Print Assumptions C13_action3_encodable.
Print Assumptions C14_action4_roundtrip.
Print Assumptions C14_action4_encodable.
Print Assumptions C15_action5_roundtrip.
Print Assumptions C15_actionA_roundtrip.
Print Assumptions C15_actionA_encodable.
Print Assumptions C16_action6_roundtrip.
Print Assumptions C16_action6_encodable.
Print Assumptions C17_action7_roundtrip.
Print Assumptions C17_action7_encodable.
Print Assumptions C18_actionD_roundtrip.
Print Assumptions C19_action14_roundtrip.
Print Assumptions C20_action8_roundtrip.
Print Assumptions C20_action10_roundtrip.
Print Assumptions C20_action11_roundtrip.
Print Assumptions C20_actionFE_roundtrip.
Print Assumptions C49_recompile.
Print Assumptions C50_actionB_text_refuted.
Print Assumptions C51_action12_refuted.
