(** Property C88: hexadecimal dumps. *)
From Coq Require Import ZArith List Bool Lia.
From Verif Require Import Base BaseFacts StringsModel ParserModel PyTextModel DumpModel.
Import ListNotations.
Open Scope Z_scope.

(** ---- specification ---- *)

(** 0-9 are the characters 48-57, a-f are 97-102. *)
Definition low_digit (c d : Z) : Prop := (0 <= d <= 9 /\ c = 48 + d) \/ (10 <= d <= 15 /\ c = 87 + d).
Inductive value : bytes -> Z -> Prop :=
| v_none : value [] 0
| v_snoc : forall t a c d, value t a -> low_digit c d -> value (t ++ [c]) (16 * a + d).
(** The numeral of [v] with at least two digits. *)
Definition numeral (v : Z) (t : bytes) : Prop :=
  value t v /\ (2 <= length t)%nat /\ ((2 < length t)%nat -> hd 0 t <> 48).
(** The numbers of bytes. *)
Definition is_byte (v : Z) : Prop := 0 <= v < 256.
Definition bytes_ok (s : list Z) : Prop := Forall is_byte s.
(** Numerals with a colon (58) between two of them. *)
Inductive dumped : list Z -> bytes -> Prop :=
| d_none : dumped [] []
| d_one : forall v t, numeral v t -> dumped [v] t
| d_more : forall v t vs r, numeral v t -> vs <> [] -> dumped vs r -> dumped (v :: vs) (t ++ 58 :: r).

(** ---- proofs ---- *)

Lemma hex_digit_low d : 0 <= d < 16 -> low_digit (ParserModel.hex_digit d) d.
Proof. unfold ParserModel.hex_digit, low_digit. intros H. destruct (Z.ltb_spec d 10); [left|right]; lia. Qed.
Lemma hex_digits_value : forall fuel n, 0 <= n < Z.of_nat fuel ->
  value (hex_digits fuel n) n /\ (n < 16 -> length (hex_digits fuel n) = 1%nat) /\
  (0 < n -> hd 0 (hex_digits fuel n) <> 48) /\ (1 <= length (hex_digits fuel n))%nat /\ (16 <= n -> (2 <= length (hex_digits fuel n))%nat) /\
  (n < 256 -> (length (hex_digits fuel n) <= 2)%nat).
Proof.
  induction fuel as [|fuel IH]; intros n H; [lia|]. cbn [hex_digits]. destruct (Z.ltb_spec n 16) as [L | L].
  - cbn [length hd]. pose proof (hex_digit_low n ltac:(lia)) as HD. split.
    { replace n with (16 * 0 + n) at 2 by lia. apply (v_snoc [] 0 _ n); [constructor|exact HD]. }
    repeat split; try lia. intros P. destruct HD as [[]|[]]; lia.
  - destruct (IH (n / 16)) as (V & S & Z0 & N & B & T); [lia|]. rewrite app_length. cbn [length].
    pose proof (hex_digit_low (n mod 16) ltac:(lia)) as HD. split.
    { replace n with (16 * (n / 16) + n mod 16) at 3 by lia. constructor; assumption. }
    repeat split; try lia. intros _. destruct (hex_digits fuel (n / 16)) as [|c t]; [cbn in N; lia|]. cbn [hd app] in *. apply Z0. lia.
Qed.
Lemma fmt_numeral v : 0 <= v -> numeral v (fmt_02x v) /\ (v < 256 -> length (fmt_02x v) = 2%nat).
Proof.
  intros P. unfold fmt_02x, fmt_x. replace (v <? 0) with false by lia. unfold hex_nat.
  destruct (hex_digits_value (S (Z.to_nat v)) v ltac:(lia)) as (V & S & Z0 & N & B & T). set (t := hex_digits (Datatypes.S (Z.to_nat v)) v) in *.
  destruct (Nat.ltb_spec (length t) 2) as [L | L].
  - assert (L1 : length t = 1%nat) by lia. destruct t as [|c [|]]; try discriminate. split; [|reflexivity].
    split; [|cbn [length]; split; lia]. inversion V as [|t' a c' d V' D E1 E2]. destruct t' as [|? [|]]; try discriminate. cbn in E1. injection E1 as ->.
    assert (A0 : a = 0) by (inversion V' as [E4|t2 a2 c2 d2 ? ? E3]; [reflexivity|destruct t2; discriminate]). rewrite A0 in *.
    change (value ([48] ++ [c]) (16 * 0 + d)). apply v_snoc; [|exact D].
    change (value ([] ++ [48]) (16 * 0 + 0)). apply v_snoc; [constructor|left; lia].
  - split; [split; [exact V|split; [exact L|]]|].
    + intros L2. apply Z0. destruct (Z.ltb_spec v 256); lia.
    + intros Q. specialize (T Q). lia.
Qed.

Lemma joins_cons a r : r <> [] -> joins [58] (a :: r) = a ++ 58 :: joins [58] r.
Proof. destruct r; [congruence|reflexivity]. Qed.

(** C88: the dump is the numerals of the bytes, or of the code points of a
    string, in order. *)
Theorem C88_dump : forall s, Forall (fun v => 0 <= v) s -> dumped s (hex_str s None).
Proof.
  intros s F. unfold hex_str. rewrite app_nil_r. induction F as [|v s P F IH]; [constructor|]. cbn [map].
  destruct s as [|w s]; [constructor; now apply fmt_numeral|]. rewrite joins_cons by discriminate.
  constructor; [now apply fmt_numeral|discriminate|exact IH].
Qed.
(** Three characters for every byte, without the last colon. *)
Theorem C88_length : forall s, bytes_ok s -> s <> [] -> len (hex_str s None) = 3 * len s - 1.
Proof.
  intros s F NE. unfold hex_str. rewrite app_nil_r. induction F as [|v s P F IH]; [congruence|]. cbn [map].
  assert (L : length (fmt_02x v) = 2%nat) by (apply fmt_numeral; unfold is_byte in P; lia).
  destruct s as [|w s]; [cbn [joins map]; unfold len; rewrite L; reflexivity|]. rewrite joins_cons by discriminate.
  specialize (IH ltac:(discriminate)). unfold len in *. rewrite app_length. cbn [length] in *. lia.
Qed.

Lemma value_digit t v : value t v -> 0 <= v /\ Forall (fun c => 48 <= c <= 57 \/ 97 <= c <= 102) t.
Proof.
  induction 1 as [|t a c d V [A B] D]; [split; [lia|constructor]|]. split; [destruct D; lia|]. apply Forall_app. split; [exact B|].
  constructor; [|constructor]. destruct D; lia.
Qed.
Lemma split_app : forall t s, ~ In 58 t -> split_colon (t ++ 58 :: s) = t :: split_colon s.
Proof.
  induction t as [|c t IH]; intros s N; [reflexivity|]. cbn [app split_colon]. destruct (Z.eqb_spec c 58) as [-> |]; [exfalso; apply N; now left|].
  rewrite IH; [reflexivity|]. intros I. apply N. now right.
Qed.
Lemma split_last : forall t, ~ In 58 t -> split_colon t = [t].
Proof.
  induction t as [|c t IH]; intros N; [reflexivity|]. cbn [split_colon]. destruct (Z.eqb_spec c 58) as [-> |]; [exfalso; apply N; now left|].
  rewrite IH; [reflexivity|]. intros I. apply N. now right.
Qed.
Lemma fmt_no_colon v : 0 <= v -> ~ In 58 (fmt_02x v).
Proof. intros P. destruct (fmt_numeral v P) as [[V _] _]. apply value_digit in V as [_ F]. rewrite Forall_forall in F. intros I. apply F in I. lia. Qed.
Lemma split_joins s : Forall (fun v => 0 <= v) s -> s <> [] -> split_colon (joins [58] (map fmt_02x s)) = map fmt_02x s.
Proof.
  intros F NE. induction F as [|v s P F IH]; [congruence|]. cbn [map]. destruct s as [|w s]; [apply split_last, fmt_no_colon, P|].
  rewrite joins_cons by discriminate. rewrite split_app by now apply fmt_no_colon. f_equal. apply IH. discriminate.
Qed.
Lemma hex_int_app : forall t acc c, hex_int acc (t ++ [c]) = do x <- hex_int acc t; do d <- StringsModel.hex_digit c; Some (16 * x + d).
Proof.
  induction t as [|e t IH]; intros acc c; cbn [app hex_int bind].
  - destruct (StringsModel.hex_digit c); reflexivity.
  - destruct (StringsModel.hex_digit e); [cbn [bind]; apply IH|reflexivity].
Qed.
Lemma low_read c d : low_digit c d -> StringsModel.hex_digit c = Some d.
Proof.
  unfold StringsModel.hex_digit. intros [[B ->] | [B ->]].
  - replace ((48 <=? 48 + d) && (48 + d <=? 57))%bool with true by lia. f_equal. lia.
  - replace ((48 <=? 87 + d) && (87 + d <=? 57))%bool with false by lia. replace ((65 <=? 87 + d) && (87 + d <=? 70))%bool with false by lia.
    replace ((97 <=? 87 + d) && (87 + d <=? 102))%bool with true by lia. f_equal. lia.
Qed.
Lemma value_int t v : value t v -> hex_int 0 t = Some v.
Proof. induction 1 as [|t a c d V IH D]; [reflexivity|]. rewrite hex_int_app, IH. cbn [bind]. rewrite (low_read c d D). reflexivity. Qed.
Lemma fmt_int v : 0 <= v -> int16 (fmt_02x v) = Some v.
Proof. intros P. destruct (fmt_numeral v P) as [[V [L _]] _]. unfold int16. destruct (fmt_02x v); [cbn in L; lia|]. now apply value_int. Qed.
Lemma nonneg s : bytes_ok s -> Forall (fun v => 0 <= v) s.
Proof. apply Forall_impl. unfold is_byte. lia. Qed.

(** str_hex reads the dump of at least one byte back. *)
Theorem C88_roundtrip : forall s, bytes_ok s -> s <> [] -> str_hex (hex_str s None) = Some s.
Proof.
  intros s F NE. unfold str_hex, hex_str. rewrite app_nil_r, split_joins by (auto using nonneg). clear NE.
  induction F as [|v s P F IH]; [reflexivity|]. cbn [map parts_hex]. unfold is_byte in P. rewrite fmt_int by lia. cbn [bind].
  replace (byteb v) with true by (unfold byteb; lia). rewrite IH. reflexivity.
Qed.
(** The dump of no byte at all is an error of str_hex. *)
Theorem C88_nothing : hex_str [] None = [] /\ str_hex [] = None.
Proof. split; reflexivity. Qed.
(** Two different sprites, or texts, have different dumps. *)
Theorem C88_injective : forall s s', Forall (fun v => 0 <= v) s -> Forall (fun v => 0 <= v) s' -> hex_str s None = hex_str s' None -> s = s'.
Proof.
  assert (NIL : forall s, Forall (fun v => 0 <= v) s -> s <> [] -> hex_str s None <> []).
  { intros s F NE E. apply C88_dump in F. rewrite E in F. inversion F as [|v t N|v t vs r N]; subst; [congruence| |].
    - destruct N as [_ [L _]]. cbn in L. lia.
    - destruct t; discriminate. }
  assert (MAP : forall s s', Forall (fun v => 0 <= v) s -> Forall (fun v => 0 <= v) s' -> map fmt_02x s = map fmt_02x s' -> s = s').
  { intros s s' F. revert s'. induction F as [|v s P F IH]; intros s' F' E; [destruct s'; [reflexivity|discriminate]|].
    destruct F' as [|v' s' P' F']; [discriminate|]. cbn [map] in E. injection E as E1 E2. rewrite (IH s' F' E2).
    apply (f_equal int16) in E1. rewrite !fmt_int in E1 by assumption. congruence. }
  intros s s' F F' E. destruct s as [|v s]; destruct s' as [|v' s']; [reflexivity| | |].
  - exfalso. apply (NIL _ F'); [discriminate|]. rewrite <- E. reflexivity.
  - exfalso. apply (NIL _ F); [discriminate|]. rewrite E. reflexivity.
  - apply MAP; [assumption..|]. unfold hex_str in E. rewrite !app_nil_r in E. apply (f_equal split_colon) in E.
    rewrite !split_joins in E by (assumption || discriminate). exact E.
Qed.
(** With a limit of at least three, what is longer is cut to limit - 3 bytes
    and three dots (46). *)
Theorem C88_limit : forall s n, 3 <= n ->
  (len s <= n -> hex_str s (Some n) = hex_str s None) /\
  (n < len s -> hex_str s (Some n) = hex_str (firstn (Z.to_nat (n - 3)) s) None ++ [46; 46; 46]).
Proof.
  intros s n N. unfold hex_str, slice_to. split; intros L.
  - replace (n <? len s) with false by lia. reflexivity.
  - replace (n <? len s) with true by lia. replace (0 <=? n - 3) with true by lia. now rewrite app_nil_r.
Qed.
(** A dump never leaves the line of its comment: there are only hexadecimal
    digits, colons and dots in it. *)
Theorem C88_one_line : forall s n c, Forall (fun v => 0 <= v) s -> In c (hex_str s n) ->
  48 <= c <= 57 \/ 97 <= c <= 102 \/ c = 58 \/ c = 46.
Proof.
  assert (J : forall s c, Forall (fun v => 0 <= v) s -> In c (joins [58] (map fmt_02x s)) -> 48 <= c <= 57 \/ 97 <= c <= 102 \/ c = 58 \/ c = 46).
  { intros s c F. assert (T : forall v, 0 <= v -> In c (fmt_02x v) -> 48 <= c <= 57 \/ 97 <= c <= 102 \/ c = 58 \/ c = 46).
    { intros v P I. destruct (fmt_numeral v P) as [[V _] _]. apply value_digit in V as [_ V]. rewrite Forall_forall in V. apply V in I. tauto. }
    induction F as [|v s P F IH]; [intros []|]. cbn [map]. destruct s as [|w s]; [exact (T v P)|]. rewrite joins_cons by discriminate.
    intros I. apply in_app_or in I as [I | [<- | I]]; [exact (T v P I)|auto|exact (IH I)]. }
  assert (FN : forall k s, Forall (fun v => 0 <= v) s -> Forall (fun v : Z => 0 <= v) (firstn k s)).
  { intros k s F. revert k. induction F as [|v s P F IH]; intros [|k]; cbn [firstn]; constructor; auto. }
  intros s n c F I. unfold hex_str in I. apply in_app_or in I as [I | I].
  - revert I. apply J. destruct n as [n|]; [|exact F]. destruct (n <? len s); [|exact F]. unfold slice_to. destruct (0 <=? n - 3); now apply FN.
  - assert (c = 46); [|auto]. destruct n as [n|]; [|destruct I]. destruct (n <? len s); [|destruct I]. cbn in I. lia.
Qed.

(** DataReader.hex_str dumps the next [n] bytes, or what is left of them. *)
Theorem C88_reader : forall before data after n, bytes_ok data -> data <> [] -> length data = n \/ (after = [] /\ (length data <= n)%nat) ->
  str_hex (reader_hex_str (before ++ data ++ after) (length before) n) = Some data.
Proof.
  intros before data after n F NE H. unfold reader_hex_str. rewrite skipn_app, skipn_all, Nat.sub_diag. cbn [app skipn].
  replace (firstn n (data ++ after)) with data; [now apply C88_roundtrip|]. rewrite firstn_app. destruct H as [<- | [-> L]].
  - now rewrite firstn_all, Nat.sub_diag, app_nil_r.
  - rewrite firstn_nil, app_nil_r. symmetry. now apply firstn_all2.
Qed.

(** A concrete case: 00:0a:ff, and its first byte with dots. *)
Example C88_case : hex_str [0; 10; 255] None = [48; 48; 58; 48; 97; 58; 102; 102] /\ str_hex [48; 48; 58; 48; 97; 58; 102; 102] = Some [0; 10; 255] /\
  hex_str [7; 8; 9; 10; 11] (Some 4) = [48; 55; 46; 46; 46] /\ hex_str [8364] None = [50; 48; 97; 99].
Proof. repeat split; reflexivity. Qed.

Print Assumptions C88_dump.
Print Assumptions C88_length.
Print Assumptions C88_roundtrip.
Print Assumptions C88_nothing.
Print Assumptions C88_injective.
Print Assumptions C88_limit.
Print Assumptions C88_one_line.
Print Assumptions C88_reader.
