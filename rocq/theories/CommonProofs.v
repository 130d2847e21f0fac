(** Proofs about CommonModel.v. *)
From Coq Require Import ZArith List Bool Lia ZifyBool.
From Verif Require Import Base BaseFacts CommonModel.
Import ListNotations.
Open Scope Z_scope.

(** ---------- dates ---------- *)

Definition accum (m : Z) : Z :=
  if m =? 1 then 0 else if m =? 2 then 31 else if m =? 3 then 60 else if m =? 4 then 91
  else if m =? 5 then 121 else if m =? 6 then 152 else if m =? 7 then 182
  else if m =? 8 then 213 else if m =? 9 then 244 else if m =? 10 then 274
  else if m =? 11 then 305 else 335.

Ltac lit := repeat match goal with |- context [Z.pos ?a + 1] =>
  let v := eval cbv in (Z.pos a + 1) in change (Z.pos a + 1) with v end.
Ltac mcbn := lit; unfold accum in *; cbn [Z.eqb Pos.eqb andb orb negb] in *.

Lemma accum_ok : forall m, 1 <= m <= 12 -> py_index ACCUM_DAYS_FOR_MONTH (m - 1) = Some (accum m).
Proof.
  intros m H.
  assert (m = 1 \/ m = 2 \/ m = 3 \/ m = 4 \/ m = 5 \/ m = 6 \/ m = 7 \/ m = 8 \/ m = 9 \/
          m = 10 \/ m = 11 \/ m = 12) as Hm by lia.
  repeat (destruct Hm as [->|Hm]; [reflexivity|]). subst; reflexivity.
Qed.

Lemma accum_step : forall a, 1 <= a < 12 -> accum a <= accum (a + 1).
Proof.
  intros a H.
  assert (a = 1 \/ a = 2 \/ a = 3 \/ a = 4 \/ a = 5 \/ a = 6 \/ a = 7 \/ a = 8 \/ a = 9 \/
          a = 10 \/ a = 11) as Ha by lia.
  repeat (destruct Ha as [->|Ha]; [cbv; discriminate|]). subst; cbv; discriminate.
Qed.

Lemma accum_mono : forall a b, 1 <= a <= b -> b <= 12 -> accum a <= accum b.
Proof.
  intros a b Hab Hb.
  assert (G : forall n, a + Z.of_nat n <= 12 -> accum a <= accum (a + Z.of_nat n)).
  { induction n; intro Hn.
    - rewrite Z.add_0_r. lia.
    - pose proof (accum_step (a + Z.of_nat n) ltac:(lia)).
      replace (a + Z.of_nat (S n)) with (a + Z.of_nat n + 1) by lia. lia. }
  specialize (G (Z.to_nat (b - a))).
  replace (a + Z.of_nat (Z.to_nat (b - a))) with b in G by lia. auto.
Qed.

Definition day_of_year (d : date) : Z :=
  let days := accum (d_month d) + d_day d - 1 in
  if negb (is_leap_year (d_year d)) && (60 <=? days) then days - 1 else days.

Lemma to_days_eq : forall d, 1 <= d_month d <= 12 ->
  to_days d = Some (days_till (d_year d) + day_of_year d).
Proof.
  intros d H. unfold to_days. rewrite accum_ok by assumption. reflexivity.
Qed.

Definition year_len (y : Z) : Z := if is_leap_year y then 366 else 365.

Lemma days_till_succ : forall y, 0 <= y -> days_till (y + 1) = days_till y + year_len y.
Proof.
  intros y Hy. unfold days_till, year_len, is_leap_year.
  destruct (0 <? y) eqn:E.
  - replace (0 <? y + 1) with true by lia.
    replace (y + 1 - 1) with y by lia.
    assert (forall k, 0 < k -> y / k = (y - 1) / k + (if y mod k =? 0 then 1 else 0)) as D.
    { intros k Hk. destruct (y mod k =? 0) eqn:Em; nia. }
    rewrite (D 4), (D 100), (D 400) by lia.
    assert (y mod 400 = 0 -> y mod 100 = 0) by lia.
    assert (y mod 100 = 0 -> y mod 4 = 0) by lia.
    destruct (y mod 4 =? 0) eqn:E4, (y mod 100 =? 0) eqn:E100, (y mod 400 =? 0) eqn:E400;
      cbn [andb orb negb]; lia.
  - assert (y = 0) by lia. subst. reflexivity.
Qed.

(** Local copy of the specification's notions is in Spec; here the facts. *)
Definition mlen (y m : Z) : Z :=
  if m =? 2 then (if is_leap_year y then 29 else 28)
  else if (m =? 4) || (m =? 6) || (m =? 9) || (m =? 11) then 30 else 31.

Lemma mlen_range : forall y m, 28 <= mlen y m <= 31.
Proof.
  intros. unfold mlen.
  repeat match goal with |- context [if ?c then _ else _] => destruct c end; lia.
Qed.

Definition validd (d : date) : Prop :=
  0 <= d_year d /\ 1 <= d_month d <= 12 /\ 1 <= d_day d <= mlen (d_year d) (d_month d).

Ltac months H :=
  match type of H with
  | 1 <= ?m <= 12 =>
    assert (m = 1 \/ m = 2 \/ m = 3 \/ m = 4 \/ m = 5 \/ m = 6 \/ m = 7 \/ m = 8 \/ m = 9 \/
          m = 10 \/ m = 11 \/ m = 12) as H by lia
  end.

Lemma day_of_year_range : forall d, validd d -> 0 <= day_of_year d < year_len (d_year d).
Proof.
  intros [y m dd] (Hy & Hm & Hd). unfold day_of_year, year_len, mlen in *. cbn [d_year d_month d_day] in *.
  destruct (is_leap_year y); cbn [negb andb];
  assert (m = 1 \/ m = 2 \/ m = 3 \/ m = 4 \/ m = 5 \/ m = 6 \/ m = 7 \/ m = 8 \/ m = 9 \/
          m = 10 \/ m = 11 \/ m = 12) as H by lia;
  repeat (destruct H as [->|H]; [mcbn; try destruct (60 <=? _) eqn:?; lia|]);
  subst; mcbn; try destruct (60 <=? _) eqn:?; lia.
Qed.

Lemma day_of_year_mono : forall y m1 d1 m2 d2,
  validd (mkDate y m1 d1) -> validd (mkDate y m2 d2) ->
  m1 < m2 \/ (m1 = m2 /\ d1 < d2) ->
  day_of_year (mkDate y m1 d1) < day_of_year (mkDate y m2 d2).
Proof.
  intros y m1 d1 m2 d2 (Hy & Hm1 & Hd1) (_ & Hm2 & Hd2) Hlt.
  unfold day_of_year, mlen in *. cbn [d_year d_month d_day] in *.
  assert (A : forall m d, 1 <= m <= 12 -> 1 <= d <= (if m =? 2 then if is_leap_year y then 29 else 28
    else if (m =? 4) || (m =? 6) || (m =? 9) || (m =? 11) then 30 else 31) ->
    accum m + d <= 335 + 31 /\ accum m + d >= 1
    /\ (m < 12 -> accum m + d <= accum (m + 1) - (if (m =? 2) && negb (is_leap_year y) then 1 else 0))
    /\ (m >= 3 -> accum m >= 60) /\ (m < 3 -> accum m + d - 1 < if is_leap_year y then 60 else 59)).
  { clear. intros m d H Hd.
    assert (m = 1 \/ m = 2 \/ m = 3 \/ m = 4 \/ m = 5 \/ m = 6 \/ m = 7 \/ m = 8 \/ m = 9 \/
          m = 10 \/ m = 11 \/ m = 12) as Hm by lia; clear H.
    destruct (is_leap_year y);
    repeat (destruct Hm as [->|Hm]; [mcbn; lia|]); subst; mcbn; lia. }
  assert (B : forall a b, 1 <= a <= b -> b <= 12 -> accum a <= accum b) by apply accum_mono.
  pose proof (A m1 d1 Hm1 Hd1) as A1. pose proof (A m2 d2 Hm2 Hd2) as A2.
  destruct Hlt as [Hlt|[-> Hlt]].
  - pose proof (B (m1 + 1) m2 ltac:(lia) ltac:(lia)).
    destruct (is_leap_year y); cbn [negb andb] in *.
    + destruct (m1 =? 2) eqn:E3; cbn [andb] in A1; lia.
    + rewrite !andb_true_r in *.
      destruct (60 <=? accum m1 + d1 - 1) eqn:E1, (60 <=? accum m2 + d2 - 1) eqn:E2;
        destruct (m1 =? 2) eqn:E3; lia.
  - destruct (is_leap_year y); cbn [negb andb]; [lia|].
    destruct (60 <=? accum m2 + d1 - 1) eqn:E1, (60 <=? accum m2 + d2 - 1) eqn:E2; lia.
Qed.

Lemma days_till_mono : forall a b, 0 <= a -> a < b -> days_till a + year_len a <= days_till b.
Proof.
  intros a b Ha Hab.
  replace b with (a + 1 + Z.of_nat (Z.to_nat (b - a - 1))) by lia.
  generalize (Z.to_nat (b - a - 1)) as n. induction n.
  - rewrite Z.add_0_r, days_till_succ by lia. lia.
  - replace (a + 1 + Z.of_nat (S n)) with (a + 1 + Z.of_nat n + 1) by lia.
    rewrite days_till_succ by lia.
    unfold year_len at 2. destruct (is_leap_year _); lia.
Qed.

Lemma to_days_mono : forall d1 d2 n1 n2, validd d1 -> validd d2 ->
  (d_year d1 < d_year d2 \/ (d_year d1 = d_year d2 /\
     (d_month d1 < d_month d2 \/ (d_month d1 = d_month d2 /\ d_day d1 < d_day d2)))) ->
  to_days d1 = Some n1 -> to_days d2 = Some n2 -> n1 < n2.
Proof.
  intros [y1 m1 e1] [y2 m2 e2] n1 n2 V1 V2 Hlt H1 H2.
  rewrite to_days_eq in H1 by (destruct V1; lia).
  rewrite to_days_eq in H2 by (destruct V2; lia).
  injection H1 as <-. injection H2 as <-. cbn [d_year d_month d_day] in *.
  pose proof (day_of_year_range _ V1). pose proof (day_of_year_range _ V2). cbn [d_year] in *.
  destruct Hlt as [Hlt|[-> Hlt]].
  - pose proof (days_till_mono y1 y2 ltac:(destruct V1; assumption) Hlt). lia.
  - pose proof (day_of_year_mono _ _ _ _ _ V1 V2 Hlt). lia.
Qed.

Lemma next_valid : forall d, validd d -> validd (datetime_next d).
Proof.
  intros [y m e] (Hy & Hm & Hd). unfold datetime_next. cbn [d_year d_month d_day] in *.
  fold (mlen y m). unfold validd.
  destruct (e <? mlen y m) eqn:E; cbn [d_year d_month d_day]; [lia|].
  destruct (m <? 12) eqn:E2; cbn [d_year d_month d_day].
  - pose proof (mlen_range y (m + 1)). lia.
  - pose proof (mlen_range (y + 1) 1). lia.
Qed.

Ltac nextcase L :=
  cbn [Z.eqb Pos.eqb andb orb negb Z.ltb Z.compare Pos.compare Pos.compare_cont] in *;
  match goal with |- context [if ?c then mkDate _ _ _ else _] => destruct c eqn:E end;
  cbn [d_year d_month d_day]; rewrite ?days_till_succ by lia; unfold year_len; rewrite ?L;
  try destruct (is_leap_year (_ + 1));
  unfold accum; repeat match goal with |- context [Z.pos ?a + 1] => let v := eval cbv in (Z.pos a + 1) in change (Z.pos a + 1) with v end; cbn [Z.eqb Pos.eqb andb orb negb];
  repeat match goal with |- context [60 <=? ?x] => destruct (60 <=? x) eqn:? end;
  lia.

Lemma to_days_next : forall d, validd d ->
  exists n, to_days d = Some n /\ to_days (datetime_next d) = Some (n + 1).
Proof.
  intros d V. pose proof (next_valid d V) as V'.
  rewrite !to_days_eq by (destruct V, V'; lia).
  eexists; split; [reflexivity|]. f_equal.
  destruct d as [y m e]. destruct V as (Hy & Hm & Hd). clear V'.
  unfold datetime_next, day_of_year, mlen in *. cbn [d_year d_month d_day] in *.
  assert (m = 1 \/ m = 2 \/ m = 3 \/ m = 4 \/ m = 5 \/ m = 6 \/ m = 7 \/ m = 8 \/ m = 9 \/
          m = 10 \/ m = 11 \/ m = 12) as H by lia; clear Hm.
  destruct (is_leap_year y) eqn:L; cbn [negb andb];
  repeat (destruct H as [->|H]; [nextcase L|]);
  subst; nextcase L.
Qed.

Lemma to_days_iter : forall n, 0 <= n ->
  to_days (Z.iter n datetime_next (mkDate 1 1 1)) = Some (n + 366)
  /\ validd (Z.iter n datetime_next (mkDate 1 1 1)).
Proof.
  intros n Hn. pattern n. apply natlike_ind; [| |assumption].
  - split; [reflexivity|]. cbv. repeat split; discriminate.
  - intros k Hk [IH V]. unfold Z.succ.
    replace (k + 1) with (Z.succ k) by lia.
    assert (E : Z.iter (Z.succ k) datetime_next (mkDate 1 1 1)
                = datetime_next (Z.iter k datetime_next (mkDate 1 1 1))).
    { rewrite !iter_nat_of_Z by lia. rewrite Zabs2Nat.inj_succ by lia. reflexivity. }
    rewrite E. split; [|now apply next_valid].
    destruct (to_days_next _ V) as (n' & H1 & H2). rewrite IH in H1. injection H1 as <-.
    rewrite H2. f_equal. lia.
Qed.

Lemma validd_inj : forall d1 d2 n, validd d1 -> validd d2 ->
  to_days d1 = Some n -> to_days d2 = Some n -> d1 = d2.
Proof.
  intros d1 d2 n V1 V2 H1 H2.
  assert (L : d1 = d2 \/
    (d_year d1 < d_year d2 \/ (d_year d1 = d_year d2 /\
     (d_month d1 < d_month d2 \/ (d_month d1 = d_month d2 /\ d_day d1 < d_day d2)))) \/
    (d_year d2 < d_year d1 \/ (d_year d2 = d_year d1 /\
     (d_month d2 < d_month d1 \/ (d_month d2 = d_month d1 /\ d_day d2 < d_day d1))))).
  { destruct d1 as [y1 m1 e1], d2 as [y2 m2 e2]; cbn.
    destruct (Z.lt_trichotomy y1 y2) as [|[->|]]; [lia| |lia].
    destruct (Z.lt_trichotomy m1 m2) as [|[->|]]; [lia| |lia].
    destruct (Z.lt_trichotomy e1 e2) as [|[->|]]; [lia|left; reflexivity|lia]. }
  destruct L as [L|[L|L]]; [assumption| |].
  - pose proof (to_days_mono _ _ _ _ V1 V2 L H1 H2). lia.
  - pose proof (to_days_mono _ _ _ _ V2 V1 L H2 H1). lia.
Qed.

Lemma before_month : forall m, 1 <= m <= 12 ->
  zsum (firstn (Z.to_nat (m - 1)) [31; 28; 31; 30; 31; 30; 31; 31; 30; 31; 30; 31])
  = accum m - (if 2 <? m then 1 else 0).
Proof.
  intros m H.
  assert (m = 1 \/ m = 2 \/ m = 3 \/ m = 4 \/ m = 5 \/ m = 6 \/ m = 7 \/ m = 8 \/ m = 9 \/
          m = 10 \/ m = 11 \/ m = 12) as Hm by lia.
  repeat (destruct Hm as [->|Hm]; [reflexivity|]). subst; reflexivity.
Qed.

Lemma date_to_days_eq : forall d, validd d -> 1 <= d_year d -> to_days d = Some (date_to_days d).
Proof.
  intros [y m e] (Hy & Hm & Hd) Hy1. rewrite to_days_eq by exact Hm. f_equal.
  cbn [d_year d_month d_day] in *.
  unfold date_to_days, datetime_ordinal, days_till, day_of_year, mlen in *.
  cbn [d_year d_month d_day] in *.
  replace (0 <? y) with true by lia.
  rewrite !before_month by lia.
  change (accum 1) with 0.
  change ((1 - 1) / 4) with 0. change ((1 - 1) / 100) with 0. change ((1 - 1) / 400) with 0.
  change (2 <? 1) with false. cbn [andb].
  generalize ((y - 1) / 4) as q4; intro.
  generalize ((y - 1) / 100) as q100; intro. generalize ((y - 1) / 400) as q400; intro.
  assert (A : (m >= 3 -> accum m >= 60) /\
     (m < 3 -> accum m + e - 1 < if is_leap_year y then 60 else 59)).
  { assert (m = 1 \/ m = 2 \/ m = 3 \/ m = 4 \/ m = 5 \/ m = 6 \/ m = 7 \/ m = 8 \/ m = 9 \/
          m = 10 \/ m = 11 \/ m = 12) as H by lia; clear Hm.
    destruct (is_leap_year y);
    repeat (destruct H as [->|H]; [mcbn; lia|]); subst; mcbn; lia. }
  destruct (is_leap_year y); cbn [negb andb]; rewrite ?andb_false_r, ?andb_true_r;
    destruct (2 <? m) eqn:?; [lia|lia| |];
    destruct (60 <=? accum m + e - 1) eqn:?; lia.
Qed.

Lemma date_to_days_range : forall d, validd d -> 1 <= d_year d <= 9999 ->
  366 <= date_to_days d <= 3652424.
Proof.
  intros d V Hy. pose proof (date_to_days_eq d V ltac:(lia)) as H.
  pose proof (day_of_year_range d V).
  rewrite to_days_eq in H by (destruct V; lia). injection H as <-.
  pose proof (days_till_mono 0 (d_year d) ltac:(lia) ltac:(lia)) as H1.
  pose proof (days_till_mono (d_year d) 10000 ltac:(lia) ltac:(lia)) as H2.
  change (days_till 0 + year_len 0) with 366 in H1.
  change (days_till 10000) with 3652425 in H2. lia.
Qed.

Lemma days_to_date_to_days : forall d, validd d -> 1 <= d_year d <= 9999 ->
  days_to_date (date_to_days d) = DVDatetime d.
Proof.
  intros d V Hy. pose proof (date_to_days_range d V Hy). unfold days_to_date.
  replace ((date_to_days d <? 366) || (3652424 <? date_to_days d)) with false by lia.
  f_equal. destruct (to_days_iter (date_to_days d - 366) ltac:(lia)) as [E V'].
  eapply validd_inj; [exact V'|exact V|exact E|].
  rewrite date_to_days_eq by (auto; lia). f_equal. lia.
Qed.

(** ---------- sprite references ---------- *)
Lemma flag_testbit : forall x n, 0 <= n -> flag x (2 ^ n) = Z.testbit x n.
Proof.
  intros x n Hn. unfold flag.
  destruct (Z.testbit x n) eqn:E.
  - apply negb_true_iff, Z.eqb_neq. intro H.
    assert (Z.testbit (Z.land x (2 ^ n)) n = true)
      by now rewrite Z.land_spec, E, Z.pow2_bits_true by lia.
    rewrite H, Z.bits_0 in H0. discriminate.
  - apply negb_false_iff, Z.eqb_eq. apply Z.bits_inj'. intros k Hk.
    rewrite Z.land_spec, Z.bits_0.
    destruct (Z.eq_dec k n) as [->|]; [now rewrite E|].
    rewrite Z.pow2_bits_false by lia. apply andb_false_r.
Qed.

Lemma testbit_b2z : forall x n, 0 <= n -> Z.b2z (Z.testbit x n) = (x / 2 ^ n) mod 2.
Proof. intros. now apply Z.testbit_spec'. Qed.

Lemma b2z_inj : forall a b : bool, Z.b2z a = Z.b2z b -> a = b.
Proof. now intros [] []. Qed.

Lemma flag_b2z : forall x m n, 0 <= n -> m = 2 ^ n -> Z.b2z (flag x m) = (x / 2 ^ n) mod 2.
Proof. intros; subst; rewrite flag_testbit by assumption. now apply testbit_b2z. Qed.

Lemma b2z_range : forall b, 0 <= Z.b2z b <= 1.
Proof. intros []; cbn; lia. Qed.

Lemma land_ones' : forall x m n, 0 <= n -> m = 2 ^ n - 1 -> Z.land x m = x mod 2 ^ n.
Proof.
  intros x m n Hn ->. rewrite <- Z.land_ones by assumption. f_equal.
  rewrite Z.ones_equiv. lia.
Qed.

Lemma to_grf_sum : forall g r,
  0 <= sr_id r < 16384 -> 0 <= sr_pal r < 16384 ->
  sr_to_grf g r = sr_id r + 16384 * Z.b2z (sr_always_transparent r)
    + 32768 * Z.b2z (sr_use_recolour r)
    + 65536 * (sr_pal r + 16384 * Z.b2z (sr_no_transparent r)
               + 32768 * Z.b2z (Bool.eqb (sr_is_global r) g)).
Proof.
  intros g r H1 H2. unfold sr_to_grf.
  pose proof (b2z_range (sr_always_transparent r)).
  pose proof (b2z_range (sr_use_recolour r)).
  pose proof (b2z_range (sr_no_transparent r)).
  pose proof (b2z_range (Bool.eqb (sr_is_global r) g)).
  rewrite (lor_shift (sr_id r) _ 14) by (try change (2 ^ 14) with 16384; lia).
  rewrite (lor_shift (sr_pal r) _ 14) by (try change (2 ^ 14) with 16384; lia).
  change (2 ^ 14) with 16384.
  rewrite (lor_shift _ _ 15) by (try change (2 ^ 15) with 32768; lia).
  rewrite (lor_shift (sr_pal r + _) _ 15) by (try change (2 ^ 15) with 32768; lia).
  change (2 ^ 15) with 32768.
  rewrite (lor_shift _ _ 16) by (try change (2 ^ 16) with 65536; lia).
  change (2 ^ 16) with 65536. lia.
Qed.

Lemma from_grf_arith : forall g d,
  sr_id (sr_from_grf g d) = d mod 16384 /\
  sr_pal (sr_from_grf g d) = (d / 65536) mod 16384 /\
  Z.b2z (sr_always_transparent (sr_from_grf g d)) = (d / 16384) mod 2 /\
  Z.b2z (sr_use_recolour (sr_from_grf g d)) = (d / 32768) mod 2 /\
  Z.b2z (sr_no_transparent (sr_from_grf g d)) = (d / 65536 / 16384) mod 2 /\
  Z.b2z (Bool.eqb (sr_is_global (sr_from_grf g d)) g) = (d / 65536 / 32768) mod 2.
Proof.
  intros g d. unfold sr_from_grf. cbn [sr_id sr_pal sr_always_transparent sr_use_recolour sr_no_transparent sr_is_global].
  rewrite !(land_ones' _ 65535 16) by (cbn; lia).
  rewrite !(land_ones' _ 16383 14) by (cbn; lia).
  rewrite Z.shiftr_div_pow2 by lia.
  rewrite !(flag_b2z _ 32768 15) by (cbn; lia).
  rewrite !(flag_b2z _ 16384 14) by (cbn; lia).
  change (2 ^ 16) with 65536. change (2 ^ 14) with 16384. change (2 ^ 15) with 32768.
  repeat split; try lia.
  assert (forall x y : bool, Bool.eqb (Bool.eqb x y) y = x) as E by (now intros [] []).
  rewrite E. rewrite (flag_b2z _ 32768 15) by (cbn; lia). reflexivity.
Qed.

Lemma to_from_grf : forall g d, 0 <= d < 4294967296 -> sr_to_grf g (sr_from_grf g d) = d.
Proof.
  intros g d H.
  destruct (from_grf_arith g d) as (E1 & E2 & E3 & E4 & E5 & E6).
  rewrite to_grf_sum by (rewrite ?E1, ?E2; lia).
  rewrite E1, E2, E3, E4, E5, E6. lia.
Qed.

Lemma from_to_grf : forall g r, 0 <= sr_id r < 16384 -> 0 <= sr_pal r < 16384 ->
  sr_from_grf g (sr_to_grf g r) = r /\ 0 <= sr_to_grf g r < 4294967296.
Proof.
  intros g r H1 H2. pose proof (to_grf_sum g r H1 H2) as S.
  pose proof (b2z_range (sr_always_transparent r)).
  pose proof (b2z_range (sr_use_recolour r)).
  pose proof (b2z_range (sr_no_transparent r)).
  pose proof (b2z_range (Bool.eqb (sr_is_global r) g)).
  split; [|lia].
  destruct (from_grf_arith g (sr_to_grf g r)) as (E1 & E2 & E3 & E4 & E5 & E6).
  set (q := sr_from_grf g (sr_to_grf g r)) in *.
  assert (sr_id q = sr_id r) by (rewrite E1; lia).
  assert (sr_pal q = sr_pal r) by (rewrite E2; lia).
  assert (sr_always_transparent q = sr_always_transparent r) by (apply b2z_inj; rewrite E3; lia).
  assert (sr_use_recolour q = sr_use_recolour r) by (apply b2z_inj; rewrite E4; lia).
  assert (sr_no_transparent q = sr_no_transparent r) by (apply b2z_inj; rewrite E5; lia).
  assert (Bool.eqb (sr_is_global q) g = Bool.eqb (sr_is_global r) g) as G
    by (apply b2z_inj; rewrite E6; lia).
  assert (sr_is_global q = sr_is_global r)
    by (destruct (sr_is_global q), (sr_is_global r), g; cbn in *; congruence).
  destruct q, r; cbn in *; congruence.
Qed.

Lemma utoi_gen : forall n v, 0 <= n -> 0 <= v < 2 ^ (n + 1) ->
  Z.lor v (- Z.land v (2 ^ n)) = if v <? 2 ^ n then v else v - 2 ^ (n + 1).
Proof.
  intros n v Hn Hv.
  assert (P : 2 ^ (n + 1) = 2 * 2 ^ n) by (rewrite Z.pow_add_r; lia).
  assert (P0 : 0 < 2 ^ n) by (apply Z.pow_pos_nonneg; lia).
  destruct (v <? 2 ^ n) eqn:E.
  - replace (Z.land v (2 ^ n)) with 0; [now rewrite Z.lor_0_r|].
    symmetry. rewrite <- (Z.mul_1_l (2 ^ n)), <- Z.shiftl_mul_pow2 by lia.
    apply land_shift_0; lia.
  - assert (V : v = Z.lor (v - 2 ^ n) (Z.shiftl 1 n)) by (rewrite lor_shift; lia).
    assert (L : Z.land v (2 ^ n) = 2 ^ n).
    { rewrite V. replace (2 ^ n) with (Z.shiftl 1 n) at 2 by (rewrite Z.shiftl_mul_pow2; lia).
      rewrite Z.land_lor_distr_l, land_shift_0, Z.land_diag, Z.lor_0_l by lia.
      rewrite Z.shiftl_mul_pow2; lia. }
    rewrite L. replace (- 2 ^ n) with (Z.shiftl (-1) n) by (rewrite Z.shiftl_mul_pow2; lia).
    rewrite V at 1. rewrite <- Z.lor_assoc, <- Z.shiftl_lor.
    change (Z.lor 1 (-1)) with (-1). rewrite lor_shift; lia.
Qed.

Lemma utoi8_spec : forall v, 0 <= v < 256 -> utoi8 v = if v <? 128 then v else v - 256.
Proof. intros v H. exact (utoi_gen 7 v ltac:(lia) H). Qed.

Lemma utoi32_spec : forall v, 0 <= v < 4294967296 ->
  utoi32 v = if v <? 2147483648 then v else v - 4294967296.
Proof. intros v H. exact (utoi_gen 31 v ltac:(lia) H). Qed.
