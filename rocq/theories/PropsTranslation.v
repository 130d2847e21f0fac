(** C84: translations of the strings of other grfs. *)
From Coq Require Import ZArith List Bool Lia.
From Verif Require Import Base BaseFacts CommonModel RecordsModel RecordsProofs TranslationModel.
Import ListNotations.
Open Scope Z_scope.

Lemma join0_ends : forall ss, ss <> [] -> join0 ss ++ [0] = concat (map (fun s => s ++ [0]) ss).
Proof.
  induction ss as [|s r IH]; intro N; [congruence|]. destruct r as [|s' r].
  - cbn. now rewrite app_nil_r.
  - change (join0 (s :: s' :: r)) with (s ++ 0 :: join0 (s' :: r)).
    change (concat (map (fun s => s ++ [0]) (s :: s' :: r))) with ((s ++ [0]) ++ concat (map (fun s => s ++ [0]) (s' :: r))).
    rewrite <- (IH ltac:(discriminate)), <- !app_assoc. reflexivity.
Qed.

(** The record of an object with these attributes: the grfid, the language,
    the number of strings, the first id, and the strings, each ended by a zero. *)
Theorem C84_layout : forall t b, t_strings t <> [] -> translations_data t = Some b ->
  b = [19] ++ t_grfid t ++ [t_lang t; len (t_strings t); t_offset t mod 256; t_offset t / 256]
      ++ concat (map (fun s => s ++ [0]) (t_strings t))
  /\ 0 <= t_lang t < 256 /\ len (t_strings t) < 256 /\ 0 <= t_offset t < 65536.
Proof.
  intros [g l o ss] b N H. cbn [t_strings t_grfid t_lang t_offset] in *. unfold translations_data in H. cbn [t_strings t_grfid t_lang t_offset concat_opt bind] in H.
  destruct (pack_B l) as [b1|] eqn:E1; [|discriminate]. cbn [bind] in H.
  destruct (pack_B (len ss)) as [b2|] eqn:E2; [|discriminate]. cbn [bind] in H.
  destruct (pack_H o) as [b3|] eqn:E3; [|discriminate]. cbn [bind] in H. injection H as <-.
  apply pack_B_inv in E1 as [R1 ->]. apply pack_B_inv in E2 as [R2 ->]. apply pack_H_inv in E3 as [R3 ->].
  split; [|lia]. rewrite app_nil_r, (join0_ends ss N). reflexivity.
Qed.

(** Read back, the record has the same fields, but one more string, an empty one. *)
Theorem C84_read : forall t b, len (t_grfid t) = 4 -> t_strings t <> [] -> Forall (fun s => ~ In 0 s) (t_strings t) ->
  translations_data t = Some b ->
  read_fields (tl b) = Some (mkTr (t_grfid t) (t_lang t) (t_offset t) (t_strings t ++ [[]])).
Proof.
  intros [g l o ss] b G N F H. cbn [t_strings t_grfid t_lang t_offset] in *.
  destruct (C84_layout (mkTr g l o ss) b N H) as (-> & L & S & O). cbn [t_strings t_grfid t_lang t_offset] in *.
  assert (Sp : forall l, Forall (fun s => ~ In 0 s) l -> split0 (concat (map (fun s => s ++ [0]) l)) = l ++ [[]]).
  { clear. induction l as [|s l IH]; intro F; [reflexivity|]. inversion F as [|? ? F1 F2]; subst.
    cbn [map concat]. rewrite <- app_assoc. cbn [app]. rewrite split0_app by assumption. now rewrite IH. }
  destruct g as [|g0 [|g1 [|g2 [|g3 [|g4 g]]]]]; unfold len in G; cbn [length] in G; try lia.
  unfold read_fields. cbn [app tl nth_error bind skipn firstn].
  assert (R : forall r, rd_H (o mod 256 :: o / 256 :: r) = Some (o, r)).
  { intro r. apply (rd_H_pack o [o mod 256; o / 256] r). now apply pack_H_ok. }
  rewrite R. cbn [bind skipn t_strings t_grfid t_lang t_offset]. pose proof (Sp ss F) as Q.
  destruct (concat (map (fun s => s ++ [0]) ss)) eqn:E; [|now rewrite Q].
  destruct ss as [|s ss]; [congruence|]. destruct s; discriminate.
Qed.

(** No such object can be made, and no such record can be decompiled. *)
Theorem C84_cannot_be_made_refuted : forall grfid offset lang, new_translations grfid offset lang = None.
Proof. intros. unfold new_translations. now destruct ((53248 <=? offset) && (offset <=? 56320)). Qed.
Theorem C84_cannot_be_read_refuted : forall d, decode_action13 d = None.
Proof. intro d. unfold decode_action13. now destruct (read_fields d). Qed.

Example C84_case : let t := mkTr [65; 66; 67; 68] 127 53248 [[88]; [89; 90]] in
  translations_data t = Some [19; 65; 66; 67; 68; 127; 2; 0; 208; 88; 0; 89; 90; 0]
  /\ read_fields [65; 66; 67; 68; 127; 2; 0; 208; 88; 0; 89; 90; 0] = Some (mkTr [65; 66; 67; 68] 127 53248 [[88]; [89; 90]; []]).
Proof. repeat split. Qed.

Print Assumptions C84_layout.
Print Assumptions C84_read.
Print Assumptions C84_cannot_be_made_refuted.
Print Assumptions C84_cannot_be_read_refuted.
