(** Theorems for C01-C04. *)
From Coq Require Import ZArith List Bool Lia ZifyBool.
From Verif Require Import Base BaseFacts CommonModel CommonProofs SpecCommon CommonProofs2.
Import ListNotations.
Open Scope Z_scope.

(** C01 *)
Theorem C01_extended_byte_roundtrip : forall v b rest,
  encode_ext v = Some b -> rd_ext (b ++ rest) = Some (v, rest).
Proof. exact rd_ext_encode. Qed.

Theorem C01_extended_byte_domain : forall v,
  (0 <= v < 65536 <-> exists b, encode_ext v = Some b)
  /\ (forall b, encode_ext v = Some b ->
        (v < 255 -> length b = 1%nat) /\ (255 <= v -> length b = 3%nat) /\ bytesb b = true).
Proof.
  intro v. unfold encode_ext. cbn [concat_opt].
  destruct (v <? 255) eqn:E.
  - split.
    + split; [intro; exists [v]; apply pack_B_ok; lia|].
      intros [b H]. apply pack_B_inv in H. lia.
    + intros b H. apply pack_B_inv in H as [? ->]. cbn. unfold byteb. repeat split; lia.
  - split.
    + split.
      * intro. rewrite pack_H_ok by lia. cbn. eauto.
      * intros [b H]. inv_opt. inv_pack. lia.
    + intros b H. inv_opt. inv_pack.
      cbn. unfold byteb. repeat split; try lia.
Qed.

Example C01_example : encode_ext 254 = Some [254] /\ encode_ext 255 = Some [255; 255; 0]
  /\ rd_ext [255; 44; 1; 7] = Some (300, [7]) /\ encode_ext 65536 = None /\ encode_ext (-1) = None.
Proof. repeat split. Qed.

(** C02 *)
Theorem C02_epoch : to_days (mkDate 0 1 1) = Some 0.
Proof. reflexivity. Qed.

Theorem C02_successor : forall a b, valid_date a -> follows a b ->
  exists n, to_days a = Some n /\ to_days b = Some (n + 1).
Proof. exact c02_successor. Qed.

Theorem C02_order : forall a b, valid_date a -> valid_date b ->
  exists m n, to_days a = Some m /\ to_days b = Some n /\
    (date_lt a b <-> m < n) /\ (a = b <-> m = n).
Proof. exact c02_order. Qed.

Example C02_example : to_days (mkDate 1920 1 1) = Some 701265 /\
  to_days (mkDate 2024 2 29) = Some 739310 /\ to_days (mkDate 2024 3 1) = Some 739311 /\
  follows (mkDate 1900 2 28) (mkDate 1900 3 1) /\ follows (mkDate 2000 2 28) (mkDate 2000 2 29)
  /\ valid_date (mkDate 2000 2 29).
Proof.
  repeat split; try reflexivity; try (cbn; lia).
  - apply (f_month 1900 2 28); [|lia]. apply ml28. intros [_ [H|[k H]]]; [|lia].
    apply H. exists 19. reflexivity.
  - apply (f_day 2000 2 28 29); [|lia]. apply ml29. split; [now exists 500|].
    right. now exists 5.
  - exists 29. split; [|cbn; lia]. apply ml29. split; [now exists 500|]. right. now exists 5.
Qed.

(** C03 *)
Theorem C03_datetime_roundtrip : forall d, valid_date d -> 1 <= d_year d <= 9999 ->
  exists b, dateprop_encode (DVDatetime d) = Some b
    /\ dateprop_encode (DVDate d) = Some b
    /\ forall r, dateprop_read (b ++ r) = Some (DVDatetime d, r).
Proof.
  intros d V Y. destruct (c03_datetime_ok d V Y) as [b H]. exists b.
  split; [assumption|]. split; [now apply (c03_datetime d b [] V Y)|].
  intro r. now apply (c03_datetime d b r V Y).
Qed.

Theorem C03_day_count_roundtrip : forall n b r, dateprop_encode (DVInt n) = Some b ->
  exists v, dateprop_read (b ++ r) = Some (v, r) /\ dateprop_encode v = Some b /\
    match v with
    | DVInt m => m = n /\ (n < 366 \/ n > 3652424)
    | DVDatetime d => valid_date d /\ 1 <= d_year d <= 9999 /\ to_days d = Some n
    | DVDate _ => False
    end.
Proof. exact c03_int. Qed.

Example C03_example :
  dateprop_encode (DVDatetime (mkDate 1 1 3)) = Some [112; 1; 0; 0] /\
  dateprop_read [112; 1; 0; 0; 9] = Some (DVDatetime (mkDate 1 1 3), [9]) /\
  dateprop_encode (DVInt 5) = Some [5; 0; 0; 0] /\
  dateprop_read [5; 0; 0; 0] = Some (DVInt 5, []).
Proof. repeat split. Qed.

(** C04 *)
Theorem C04_spriteref_roundtrip : forall global_if_flagged r,
  0 <= sr_id r <= 16383 -> 0 <= sr_pal r <= 16383 ->
  sr_from_grf global_if_flagged (sr_to_grf global_if_flagged r) = r
  /\ 0 <= sr_to_grf global_if_flagged r < 4294967296.
Proof. intros; apply from_to_grf; lia. Qed.

Theorem C04_word_roundtrip : forall global_if_flagged d, 0 <= d < 4294967296 ->
  sr_to_grf global_if_flagged (sr_from_grf global_if_flagged d) = d.
Proof. exact to_from_grf. Qed.

(** The two conventions differ in the top bit only. *)
Theorem C04_conventions : forall r, 0 <= sr_id r <= 16383 -> 0 <= sr_pal r <= 16383 ->
  sr_to_grf true r - sr_to_grf false r = if sr_is_global r then 2147483648 else - 2147483648.
Proof.
  intros r H1 H2. rewrite !to_grf_sum by lia. destruct (sr_is_global r); cbn [Bool.eqb Z.b2z]; lia.
Qed.

(** Which bit carries which field. *)
Theorem C04_bit_layout : forall g r, 0 <= sr_id r <= 16383 -> 0 <= sr_pal r <= 16383 ->
  sr_to_grf g r = sr_id r + 2 ^ 14 * Z.b2z (sr_always_transparent r)
    + 2 ^ 15 * Z.b2z (sr_use_recolour r) + 2 ^ 16 * sr_pal r
    + 2 ^ 30 * Z.b2z (sr_no_transparent r)
    + 2 ^ 31 * Z.b2z (Bool.eqb (sr_is_global r) g).
Proof.
  intros. rewrite to_grf_sum by lia.
  change (2 ^ 14) with 16384. change (2 ^ 15) with 32768. change (2 ^ 16) with 65536.
  change (2 ^ 30) with 1073741824. change (2 ^ 31) with 2147483648. lia.
Qed.

Example C04_example :
  sr_to_grf false (mkSR 1420 775 false true false true) = 1073741824 + 2147483648 + 65536 * 775 + 32768 + 1420
  /\ sr_from_grf true 3272050060 = mkSR 1420 775 true true false true.
Proof. repeat split. Qed.

Print Assumptions C01_extended_byte_roundtrip.
Print Assumptions C01_extended_byte_domain.
Print Assumptions C02_epoch.
Print Assumptions C02_successor.
Print Assumptions C02_order.
Print Assumptions C03_datetime_roundtrip.
Print Assumptions C03_day_count_roundtrip.
Print Assumptions C04_spriteref_roundtrip.
Print Assumptions C04_word_roundtrip.
Print Assumptions C04_conventions.
Print Assumptions C04_bit_layout.
