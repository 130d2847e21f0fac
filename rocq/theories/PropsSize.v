(** Property C89: sizes in the build report. *)
From Coq Require Import ZArith List Bool Lia String.
From Verif Require Import Base BaseFacts DecodeModel SpecUtils SizeModel.
Import ListNotations.
Open Scope Z_scope.

(** ---- specification ---- *)

Definition chars (s : string) : bytes := map (fun a => Z.of_N (Ascii.N_of_ascii a)) (list_ascii_of_string s).
Inductive unit_of : string -> Z -> Prop :=
| u_b : unit_of "B" 1
| u_kib : unit_of "KiB" 1024
| u_mib : unit_of "MiB" 1048576
| u_gib : unit_of "GiB" 1073741824.
(** The text [t] is a number with two digits after the point (46), a space (32)
    and a unit; it means [v] hundredths of bytes. *)
Definition says (t : bytes) (u : string) (scale v : Z) : Prop := exists w f,
  t = w ++ 46 :: f ++ 32 :: chars u /\ is_digits w /\ is_digits f /\ List.length f = 2%nat /\ unit_of u scale /\
  v = (100 * number_of w + number_of f) * scale.

(** ---- proofs ---- *)

Lemma rhe_near a b : 0 < b -> 2 * Z.abs (b * round_half_even a b - a) <= b.
Proof.
  intros B. unfold round_half_even. pose proof (Z.div_mod a b ltac:(lia)) as D. pose proof (Z.mod_pos_bound a b B) as M.
  destruct (Z.ltb_spec (2 * (a mod b)) b); [lia|]. destruct (Z.ltb_spec b (2 * (a mod b))); [lia|]. destruct (Z.even (a / b)); lia.
Qed.
Lemma rhe_nonneg a b : 0 < b -> 0 <= a -> 0 <= round_half_even a b.
Proof.
  intros B A. unfold round_half_even. pose proof (Z.div_pos a b A B). destruct (_ <? _); [lia|]. destruct (_ <? _); [lia|]. destruct (Z.even _); lia.
Qed.
Lemma rhe_mono a a' b : 0 < b -> a <= a' -> round_half_even a b <= round_half_even a' b.
Proof.
  intros B A. destruct (Z.le_gt_cases (round_half_even a b) (round_half_even a' b)) as [|G]; [assumption|exfalso].
  destruct (Z.eq_dec a a') as [-> | NE]; [lia|]. pose proof (rhe_near a b B). pose proof (rhe_near a' b B).
  assert (b * (round_half_even a' b + 1) <= b * round_half_even a b) by (apply Z.mul_le_mono_nonneg_l; lia). lia.
Qed.
Lemma rhe_exact q b : 0 < b -> round_half_even (q * b) b = q.
Proof. intros B. unfold round_half_even. rewrite Z.mod_mul, Z.div_mul by lia. replace (2 * 0 <? b) with true by lia. reflexivity. Qed.

Lemma str_nat_ok n : 0 <= n -> is_digits (str_nat n) /\ number_of (str_nat n) = n.
Proof.
  intros N. unfold str_nat. assert (Q : forall fuel n, 0 <= n < Z.of_nat fuel -> is_digits (dec_digits fuel n) /\ number_of (dec_digits fuel n) = n).
  { clear. induction fuel as [|fuel IH]; intros n H; [lia|]. cbn [dec_digits]. destruct (Z.ltb_spec n 10) as [L | L].
    - split; [split; [discriminate|constructor; [lia|constructor]]|]. unfold number_of. cbn [fold_left]. lia.
    - destruct (IH (n / 10)) as [[NE F] V]; [lia|]. split.
      + split; [destruct (dec_digits fuel (n / 10)); discriminate|]. apply Forall_app. split; [exact F|]. constructor; [lia|constructor].
      + unfold number_of in *. rewrite fold_left_app, V. cbn [fold_left]. lia. }
  apply Q. lia.
Qed.

Lemma fmt_says num scale u : 0 <= num -> unit_of u scale ->
  says (fmt_2f num scale ++ 32 :: chars u) u scale (round_half_even (100 * num) scale * scale).
Proof.
  intros N U. assert (B : 0 < scale) by (destruct U; lia). pose proof (rhe_nonneg (100 * num) scale B ltac:(lia)) as P.
  unfold fmt_2f. set (h := round_half_even (100 * num) scale) in *. destruct (str_nat_ok (h / 100) ltac:(lia)) as [D V].
  exists (str_nat (h / 100)), [48 + h / 10 mod 10; 48 + h mod 10]. split; [now rewrite <- app_assoc|]. split; [exact D|].
  split; [split; [discriminate|repeat constructor; lia]|]. split; [reflexivity|]. split; [exact U|]. rewrite V. unfold number_of. cbn [fold_left].
  replace (100 * (h / 100) + (10 * (10 * 0 + (48 + h / 10 mod 10 - 48)) + (48 + h mod 10 - 48))) with h by lia. reflexivity.
Qed.
Lemma unit_chosen num : 0 <= num -> exists u scale, unit_of u scale /\ byte_size_format num = fmt_2f num scale ++ 32 :: chars u /\
  (num < 1024 * scale \/ scale = 1073741824) /\ (scale <= num \/ scale = 1).
Proof.
  intros N. unfold byte_size_format, size_loop. change (1024 * 1) with 1024. change (1024 * 1024) with 1048576. change (1024 * 1048576) with 1073741824.
  destruct (Z.ltb_spec num 1024); [exists "B"%string, 1|destruct (Z.ltb_spec num 1048576); [exists "KiB"%string, 1024|
    destruct (Z.ltb_spec num 1073741824); [exists "MiB"%string, 1048576|exists "GiB"%string, 1073741824]]];
    (split; [constructor|]; split; [reflexivity|lia]).
Qed.

(** C89: the text means the size to the nearest hundredth of its unit, and the
    unit is the largest that is not larger than the size. *)
Theorem C89_size : forall num, 0 <= num < 2 ^ 53 -> exists u scale v, says (byte_size_format num) u scale v /\
  2 * Z.abs (v - 100 * num) <= scale /\ (scale <= num \/ scale = 1) /\ (num < 1024 * scale \/ scale = 1073741824).
Proof.
  intros num [N _]. destruct (unit_chosen num N) as (u & scale & U & E & HI & LO). exists u, scale. eexists. rewrite E.
  split; [apply fmt_says; assumption|]. split; [|auto]. rewrite (Z.mul_comm _ scale). apply rhe_near. destruct U; lia.
Qed.
(** A larger size never reads as a smaller one. *)
Theorem C89_monotone : forall num num', 0 <= num <= num' -> num' < 2 ^ 53 ->
  exists u s v u' s' v', says (byte_size_format num) u s v /\ says (byte_size_format num') u' s' v' /\ v <= v'.
Proof.
  intros num num' H _. destruct (unit_chosen num ltac:(lia)) as (u & s & U & E & HI & LO). destruct (unit_chosen num' ltac:(lia)) as (u' & s' & U' & E' & HI' & LO').
  exists u, s, (round_half_even (100 * num) s * s), u', s', (round_half_even (100 * num') s' * s'). rewrite E, E'.
  split; [apply fmt_says; lia || assumption|]. split; [apply fmt_says; lia || assumption|].
  assert (S0 : 0 < s) by (destruct U; lia). assert (S1 : 0 < s') by (destruct U'; lia).
  destruct (Z.eq_dec s s') as [<- | NE]; [apply Z.mul_le_mono_nonneg_r; [lia|apply rhe_mono; lia]|].
  assert (LT : 1024 * s <= s'). { destruct U, U'; lia. }
  assert (TOP : s' <= 1073741824) by (destruct U'; lia).
  assert (A : round_half_even (100 * num) s <= 102400). { rewrite <- (rhe_exact 102400 s S0). apply rhe_mono; [exact S0|]. lia. }
  assert (B : 100 <= round_half_even (100 * num') s'). { apply Z.le_trans with (round_half_even (100 * s') s'); [rewrite rhe_exact by exact S1; lia|]. apply rhe_mono; [exact S1|]. lia. }
  apply Z.le_trans with (102400 * s); [apply Z.mul_le_mono_nonneg_r; lia|]. apply Z.le_trans with (100 * s'); [lia|apply Z.mul_le_mono_nonneg_r; lia].
Qed.
(** The text can be read in one way only. *)
Theorem C89_unambiguous : forall t u s v u' s' v', says t u s v -> says t u' s' v' -> u = u' /\ s = s' /\ v = v'.
Proof.
  intros t u s v u' s' v' (w & f & E & D & Df & L & U & ->) (w' & f' & E' & D' & Df' & L' & U' & ->).
  assert (Q : forall w w' r r', Forall (fun c => 48 <= c <= 57) w -> Forall (fun c => 48 <= c <= 57) w' -> w ++ 46 :: r = w' ++ 46 :: r' -> w = w' /\ r = r').
  { clear. intros w w' r r' F. revert w'. induction F as [|c w C F IH]; intros w' F' E; destruct F' as [|c' w' C' F'].
    - injection E. auto.
    - injection E as E1 E2. lia.
    - injection E as E1 E2. lia.
    - injection E as -> E2. destruct (IH w' F' E2) as [-> ->]. auto. }
  rewrite E in E'. apply Q in E' as [<- E']; [|apply D|apply D'].
  assert (FF : f = f' /\ chars u = chars u').
  { destruct f as [|a [|b [|]]]; try discriminate. destruct f' as [|a' [|b' [|]]]; try discriminate. cbn [app] in E'. injection E' as -> -> E2. auto. }
  destruct FF as [<- CU]. destruct U, U'; try discriminate CU; auto.
Qed.
(** Less than 1024 bytes are printed exactly. *)
Theorem C89_bytes : forall num, 0 <= num < 1024 -> says (byte_size_format num) "B" 1 (100 * num).
Proof.
  intros num H. unfold byte_size_format, size_loop. replace (num <? 1024 * 1) with true by lia.
  replace (100 * num) with (round_half_even (100 * num) 1 * 1); [refine (fmt_says num 1 "B" _ _); [lia|constructor]|].
  rewrite Z.mul_1_r. rewrite <- (Z.mul_1_r (100 * num)) at 1. apply rhe_exact. lia.
Qed.

(** Concrete cases: 1234567 bytes are "1.18 MiB"; one byte less than a MiB is
    printed as "1024.00 KiB". *)
Example C89_case : byte_size_format 1234567 = chars "1.18 MiB" /\ byte_size_format 1048575 = chars "1024.00 KiB" /\
  byte_size_format 0 = chars "0.00 B" /\ byte_size_format (5 * 1073741824) = chars "5.00 GiB".
Proof. repeat split; reflexivity. Qed.

Print Assumptions C89_size.
Print Assumptions C89_monotone.
Print Assumptions C89_unambiguous.
Print Assumptions C89_bytes.
