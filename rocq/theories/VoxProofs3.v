(** The enlarged picture pixel by pixel, and why it has no holes. *)
From Verif Require Import Base BaseFacts VoxModel SpecVox VoxProofs VoxProofs2.
From Coq Require Import ZArith List Bool Lia.
Import ListNotations.
Open Scope Z_scope.

Definition writes (p : picture) (y Y X : Z) : bool :=
  has (side_pixels (side_of p y (X / 4))) (X mod 4) (Y - 2 * y).

Definition valid (p : picture) : Prop := forall y x, 0 <= p_px p y x < 1024.

Lemma shiftr8 v : 0 <= v < 1024 -> 0 <= Z.shiftr v 8 <= 3.
Proof. intros H. rewrite Z.shiftr_div_pow2 by lia. change (2 ^ 8) with 256. Z.to_euclidean_division_equations. lia. Qed.

Lemma side_range p y x : valid p -> 0 <= side_of p y x <= 3.
Proof.
  intros V. unfold side_of. pose proof (shiftr8 _ (V y x)) as S. cbv zeta.
  assert (C : Z.shiftr (p_px p y x) 8 = 0 \/ Z.shiftr (p_px p y x) 8 = 1 \/
              Z.shiftr (p_px p y x) 8 = 2 \/ Z.shiftr (p_px p y x) 8 = 3) by lia.
  destruct (bottom (p_px p y x)); [|exact S].
  repeat match goal with |- context [if ?b then _ else _] => destruct b end;
    destruct C as [-> | [-> | [-> | ->]]]; cbn; lia.
Qed.

Lemma fold_x k p y l : forall out Y X,
  fold_left (fun out x => blow_px k p y x out) l out Y X =
  fold_left (fun v x => if has (side_pixels (side_of p y x)) (X - 4 * x) (Y - 2 * y)
                        then house_palette k (p_px p y x) else v) l (out Y X).
Proof.
  induction l as [|x l IH]; intros out Y X; cbn [fold_left]; [reflexivity|].
  rewrite IH, blow_px_at. reflexivity.
Qed.

Lemma row_at k p y Y X out : valid p -> 0 <= X < 4 * p_w p ->
  fold_left (fun out x => blow_px k p y x out) (zrange (p_w p)) out Y X =
  if writes p y Y X then house_palette k (p_px p y (X / 4)) else out Y X.
Proof.
  intros V HX. rewrite fold_x.
  rewrite (fold_one _ (p_w p) (out Y X) (X / 4)).
  - replace ((0 <=? X / 4) && (X / 4 <? p_w p)) with true.
    + unfold writes. replace (X - 4 * (X / 4)) with (X mod 4) by (Z.to_euclidean_division_equations; lia). reflexivity.
    + symmetry. apply andb_true_iff. split; [apply Z.leb_le|apply Z.ltb_lt]; Z.to_euclidean_division_equations; lia.
  - intros b i N. rewrite has_pat by (apply side_range; exact V).
    replace ((0 <=? X - 4 * i) && (X - 4 * i <? 4)) with false; [reflexivity|].
    symmetry. apply andb_false_iff.
    destruct (Z.leb_spec 0 (X - 4 * i)); [right|left; reflexivity].
    apply Z.ltb_ge. Z.to_euclidean_division_equations. lia.
Qed.

Lemma fold_y k p l : valid p -> forall out Y X, 0 <= X < 4 * p_w p ->
  fold_left (fun out y => fold_left (fun out x => blow_px k p y x out) (zrange (p_w p)) out) l out Y X =
  fold_left (fun v y => if writes p y Y X then house_palette k (p_px p y (X / 4)) else v) l (out Y X).
Proof.
  intros V. induction l as [|y l IH]; intros out Y X HX; cbn [fold_left]; [reflexivity|].
  rewrite (IH _ Y X HX), row_at by assumption. reflexivity.
Qed.

Lemma writes_rows p y Y X : valid p ->
  writes p y Y X = (Y =? 2 * y + 1) || ((Y =? 2 * y) && pat_top (side_of p y (X / 4)) (X mod 4))
                   || ((Y =? 2 * y + 2) && pat_bot (side_of p y (X / 4)) (X mod 4)).
Proof.
  intros V. unfold writes. rewrite has_pat by (apply side_range; exact V).
  replace ((0 <=? X mod 4) && (X mod 4 <? 4)) with true
    by (symmetry; apply andb_true_iff; split; [apply Z.leb_le|apply Z.ltb_lt]; Z.to_euclidean_division_equations; lia).
  cbn [andb].
  replace (Y - 2 * y =? 1) with (Y =? 2 * y + 1)
    by (destruct (Z.eqb_spec Y (2 * y + 1)), (Z.eqb_spec (Y - 2 * y) 1); try reflexivity; lia).
  replace (Y - 2 * y =? 0) with (Y =? 2 * y)
    by (destruct (Z.eqb_spec Y (2 * y)), (Z.eqb_spec (Y - 2 * y) 0); try reflexivity; lia).
  replace (Y - 2 * y =? 2) with (Y =? 2 * y + 2)
    by (destruct (Z.eqb_spec Y (2 * y + 2)), (Z.eqb_spec (Y - 2 * y) 2); try reflexivity; lia).
  reflexivity.
Qed.

(** the value left at (Y, X) by the rows below [n] *)
Definition sees (n : Z) (p : picture) (k : vlib) (y Y X v : Z) : Z :=
  if (0 <=? y) && (y <? n) && writes p y Y X then house_palette k (p_px p y (X / 4)) else v.

Lemma fold_two k p Y X : valid p -> forall n, 0 <= n ->
  fold_left (fun v y => if writes p y Y X then house_palette k (p_px p y (X / 4)) else v) (zrange n) 0 =
  sees n p k (Y / 2) Y X (sees n p k (Y / 2 - 1) Y X 0).
Proof.
  intros V. apply (natlike_ind (fun n => _)).
  - cbn. unfold sees.
    replace ((0 <=? Y / 2) && (Y / 2 <? 0)) with false by (symmetry; apply andb_false_iff; destruct (Z.leb_spec 0 (Y / 2)); [right; apply Z.ltb_ge; lia|left; reflexivity]).
    replace ((0 <=? Y / 2 - 1) && (Y / 2 - 1 <? 0)) with false by (symmetry; apply andb_false_iff; destruct (Z.leb_spec 0 (Y / 2 - 1)); [right; apply Z.ltb_ge; lia|left; reflexivity]).
    reflexivity.
  - intros n Hn IH.
    assert (E : zrange (Z.succ n) = zrange n ++ [n]).
    { unfold zrange. rewrite Z2Nat.inj_succ by exact Hn. rewrite seq_S, map_app. cbn [map]. rewrite Nat.add_0_l, Z2Nat.id by exact Hn. reflexivity. }
    rewrite E, fold_left_app. cbn [fold_left]. rewrite IH. clear IH E.
    destruct (writes p n Y X) eqn:W.
    + (* n is one of the two rows *)
      assert (C : n = Y / 2 \/ n = Y / 2 - 1).
      { rewrite writes_rows in W by exact V. apply orb_true_iff in W as [W|W]; [apply orb_true_iff in W as [W|W]|].
        - apply Z.eqb_eq in W. Z.to_euclidean_division_equations. lia.
        - apply andb_true_iff in W as [W _]. apply Z.eqb_eq in W. Z.to_euclidean_division_equations. lia.
        - apply andb_true_iff in W as [W _]. apply Z.eqb_eq in W. Z.to_euclidean_division_equations. lia. }
      unfold sees. destruct C as [-> | C].
      * replace ((0 <=? Y / 2) && (Y / 2 <? Z.succ (Y / 2))) with true
          by (symmetry; apply andb_true_iff; split; [apply Z.leb_le|apply Z.ltb_lt]; lia).
        cbn [andb]. rewrite W. reflexivity.
      * replace (Y / 2 <? Z.succ n) with false by (symmetry; apply Z.ltb_ge; lia).
        rewrite andb_false_r. cbn [andb]. rewrite <- C.
        replace ((0 <=? n) && (n <? Z.succ n)) with true
          by (symmetry; apply andb_true_iff; split; [apply Z.leb_le|apply Z.ltb_lt]; lia).
        cbn [andb]. rewrite W. reflexivity.
    + assert (S : forall y v, sees (Z.succ n) p k y Y X v = sees n p k y Y X v).
      { intros y v. unfold sees. destruct (Z.eq_dec y n) as [->|N].
        - rewrite W, !andb_false_r. reflexivity.
        - replace (y <? Z.succ n) with (y <? n); [reflexivity|].
          destruct (Z.ltb_spec y n), (Z.ltb_spec y (Z.succ n)); try reflexivity; lia. }
      rewrite !S. reflexivity.
Qed.

Lemma blow_at k p Y X : valid p -> 0 <= p_h p -> 0 <= X < 4 * p_w p ->
  blow_up k p Y X = sees (p_h p) p k (Y / 2) Y X (sees (p_h p) p k (Y / 2 - 1) Y X 0).
Proof. intros V H HX. unfold blow_up. rewrite fold_y by assumption. apply fold_two; assumption. Qed.

(** odd rows *)
Lemma blow_odd k p y X : valid p -> 0 <= y < p_h p -> 0 <= X < 4 * p_w p ->
  blow_up k p (2 * y + 1) X = house_palette k (p_px p y (X / 4)).
Proof.
  intros V Hy HX. rewrite blow_at by (assumption || lia).
  replace ((2 * y + 1) / 2) with y by (Z.to_euclidean_division_equations; lia).
  unfold sees at 1. rewrite writes_rows by exact V. rewrite Z.eqb_refl. cbn [orb].
  replace ((0 <=? y) && (y <? p_h p)) with true
    by (symmetry; apply andb_true_iff; split; [apply Z.leb_le|apply Z.ltb_lt]; lia).
  reflexivity.
Qed.

(** even rows *)
Definition top_part (p : picture) (k : vlib) (y X : Z) (v : Z) : Z :=
  if (0 <=? y) && (y <? p_h p) && pat_top (side_of p y (X / 4)) (X mod 4)
  then house_palette k (p_px p y (X / 4)) else v.
Definition bot_part (p : picture) (k : vlib) (y X : Z) (v : Z) : Z :=
  if (0 <=? y) && (y <? p_h p) && pat_bot (side_of p y (X / 4)) (X mod 4)
  then house_palette k (p_px p y (X / 4)) else v.

Lemma blow_even k p y X : valid p -> 0 <= p_h p -> 0 <= X < 4 * p_w p ->
  blow_up k p (2 * y) X = top_part p k y X (bot_part p k (y - 1) X 0).
Proof.
  intros V H HX. rewrite blow_at by (assumption || lia).
  replace (2 * y / 2) with y by (Z.to_euclidean_division_equations; lia).
  unfold sees, top_part, bot_part. rewrite !writes_rows by exact V.
  replace (2 * y =? 2 * y + 1) with false by (symmetry; apply Z.eqb_neq; lia).
  replace (2 * y =? 2 * y + 2) with false by (symmetry; apply Z.eqb_neq; lia).
  rewrite Z.eqb_refl. cbn [orb andb].
  replace (2 * y =? 2 * (y - 1) + 1) with false by (symmetry; apply Z.eqb_neq; lia).
  replace (2 * y =? 2 * (y - 1)) with false by (symmetry; apply Z.eqb_neq; lia).
  replace (2 * y =? 2 * (y - 1) + 2) with true by (symmetry; apply Z.eqb_eq; lia).
  cbn [orb andb]. rewrite orb_false_r. reflexivity.
Qed.

(** ** Which pixel may lie below which *)

(** raw sides: ZL 0, ZR 1, X 2, Y 3; 4 is the background *)
Definition raw (v : Z) : Z := if v =? 0 then 4 else v / 256.

Definition stacked (a b : Z) : Prop :=
  (a = 0 -> b <> 0 /\ b <> 3) /\ (a = 1 -> b <> 1 /\ b <> 2).

Lemma top_bot a b i : 0 <= a <= 3 -> 0 <= b <= 3 ->
  (a = 0 \/ a = 2 -> b = 1 \/ b = 2) -> (a = 1 \/ a = 3 -> b = 0 \/ b = 3) ->
  pat_top b i || pat_bot a i = true.
Proof.
  intros A B H1 H2. unfold pat_top, pat_bot.
  assert (a = 0 \/ a = 1 \/ a = 2 \/ a = 3) as [-> | [-> | [-> | ->]]] by lia;
  assert (b = 0 \/ b = 1 \/ b = 2 \/ b = 3) as [-> | [-> | [-> | ->]]] by lia;
  cbn [Z.eqb orb Pos.eqb];
  try (exfalso; first [destruct (H1 ltac:(lia)); lia | destruct (H2 ltac:(lia)); lia]);
  destruct (Z.ltb_spec i 2), (Z.leb_spec 2 i); try reflexivity; lia.
Qed.

Lemma bits_of v : 0 <= v < 1024 ->
  Z.shiftr v 8 = v / 256 /\ bottom v = (2 <=? v / 256) /\ right v = (v / 256 =? 1) || (v / 256 =? 3).
Proof.
  intros H. rewrite Z.shiftr_div_pow2 by lia. change (2 ^ 8) with 256. split; [reflexivity|].
  unfold bottom, right.
  assert (B9 : Z.testbit v 9 = Z.testbit (v / 256) 1).
  { change 256 with (2 ^ 8). rewrite <- (Z.shiftr_div_pow2 v 8) by lia. rewrite Z.shiftr_spec by lia. reflexivity. }
  assert (B8 : Z.testbit v 8 = Z.testbit (v / 256) 0).
  { change 256 with (2 ^ 8). rewrite <- (Z.shiftr_div_pow2 v 8) by lia. rewrite Z.shiftr_spec by lia. reflexivity. }
  rewrite B9, B8.
  assert (C : v / 256 = 0 \/ v / 256 = 1 \/ v / 256 = 2 \/ v / 256 = 3) by (Z.to_euclidean_division_equations; lia).
  destruct C as [-> | [-> | [-> | ->]]]; split; reflexivity.
Qed.

(** the pattern of a pixel given the raw sides above and below (4: none) *)
Definition eff (a v b : Z) : Z :=
  if 2 <=? v then
    let s := if (b <=? 1) && Bool.eqb (b =? 1) (v =? 3) then Z.lxor v 3 else v in
    if ((a =? 2) || (a =? 3)) && negb (Bool.eqb (a =? 3) (v =? 3)) then Z.lxor s 2 else s
  else v.

Definition around (p : picture) (y x : Z) : Z :=
  if (0 <=? y) && (y <? p_h p) then raw (p_px p y x) else 4.

Lemma raw_range v : 0 <= v < 1024 -> 0 <= raw v <= 4.
Proof. intros H. unfold raw. destruct (v =? 0); [lia|]. Z.to_euclidean_division_equations. lia. Qed.

Lemma side_eff p y x : valid p -> 0 <= y < p_h p -> p_px p y x <> 0 ->
  side_of p y x = eff (around p (y - 1) x) (raw (p_px p y x)) (around p (y + 1) x).
Proof.
  intros V Hy NZ. unfold side_of, eff, around. cbv zeta.
  destruct (bits_of _ (V y x)) as (E1 & E2 & E3).
  destruct (bits_of _ (V (y + 1) x)) as (B1 & B2 & B3).
  destruct (bits_of _ (V (y - 1) x)) as (A1 & A2 & A3).
  rewrite E1, E2, E3, B2, B3, A2, A3. clear E1 E2 E3 B1 B2 B3 A1 A2 A3.
  assert (RV : raw (p_px p y x) = p_px p y x / 256).
  { unfold raw. replace (p_px p y x =? 0) with false by (symmetry; apply Z.eqb_neq; exact NZ). reflexivity. }
  rewrite RV.
  pose proof (V y x) as V1. pose proof (V (y + 1) x) as V2. pose proof (V (y - 1) x) as V3.
  replace (0 <=? y + 1) with true by (symmetry; apply Z.leb_le; lia).
  replace (y - 1 <? p_h p) with true by (symmetry; apply Z.ltb_lt; lia).
  rewrite andb_true_r. cbn [andb].
  replace (0 <=? y - 1) with (0 <? y)
    by (destruct (Z.ltb_spec 0 y), (Z.leb_spec 0 (y - 1)); try reflexivity; lia).
  assert (CV : p_px p y x / 256 = 0 \/ p_px p y x / 256 = 1 \/ p_px p y x / 256 = 2 \/ p_px p y x / 256 = 3)
    by (Z.to_euclidean_division_equations; lia).
  assert (CB : p_px p (y + 1) x / 256 = 0 \/ p_px p (y + 1) x / 256 = 1 \/ p_px p (y + 1) x / 256 = 2 \/ p_px p (y + 1) x / 256 = 3)
    by (Z.to_euclidean_division_equations; lia).
  assert (CA : p_px p (y - 1) x / 256 = 0 \/ p_px p (y - 1) x / 256 = 1 \/ p_px p (y - 1) x / 256 = 2 \/ p_px p (y - 1) x / 256 = 3)
    by (Z.to_euclidean_division_equations; lia).
  unfold raw.
  destruct (y + 1 <? p_h p), (0 <? y), (p_px p (y + 1) x =? 0), (p_px p (y - 1) x =? 0); cbn [andb negb];
    destruct CV as [CV | [CV | [CV | CV]]]; rewrite ?CV; destruct CB as [CB | [CB | [CB | CB]]]; rewrite ?CB;
    destruct CA as [CA | [CA | [CA | CA]]]; rewrite ?CA; reflexivity.
Qed.

(** two opaque pixels one above the other: the patterns meet *)
Lemma eff_meet r0 a b r3 : 0 <= r0 <= 4 -> 0 <= a <= 3 -> 0 <= b <= 3 -> 0 <= r3 <= 4 ->
  stacked a b ->
  (eff r0 a b = 0 \/ eff r0 a b = 2 -> eff a b r3 = 1 \/ eff a b r3 = 2) /\
  (eff r0 a b = 1 \/ eff r0 a b = 3 -> eff a b r3 = 0 \/ eff a b r3 = 3).
Proof.
  intros H0 HA HB H3 [S1 S2].
  assert (C0 : r0 = 0 \/ r0 = 1 \/ r0 = 2 \/ r0 = 3 \/ r0 = 4) by lia.
  assert (C3 : r3 = 0 \/ r3 = 1 \/ r3 = 2 \/ r3 = 3 \/ r3 = 4) by lia.
  assert (CA : a = 0 \/ a = 1 \/ a = 2 \/ a = 3) by lia.
  assert (CB : b = 0 \/ b = 1 \/ b = 2 \/ b = 3) by lia.
  destruct CA as [-> | [-> | [-> | ->]]]; destruct CB as [-> | [-> | [-> | ->]]];
    try (exfalso; first [destruct (S1 eq_refl); lia | destruct (S2 eq_refl); lia]);
    destruct C0 as [-> | [-> | [-> | [-> | ->]]]]; destruct C3 as [-> | [-> | [-> | [-> | ->]]]];
    cbn; lia.
Qed.

Lemma no_gap k p y X : valid p -> 0 < y < p_h p -> 0 <= X < 4 * p_w p ->
  p_px p (y - 1) (X / 4) <> 0 -> p_px p y (X / 4) <> 0 ->
  stacked (raw (p_px p (y - 1) (X / 4))) (raw (p_px p y (X / 4))) ->
  blow_up k p (2 * y) X = house_palette k (p_px p y (X / 4)) \/
  blow_up k p (2 * y) X = house_palette k (p_px p (y - 1) (X / 4)).
Proof.
  intros V Hy HX NA NB ST. rewrite blow_even by (assumption || lia). unfold top_part, bot_part.
  replace ((0 <=? y) && (y <? p_h p)) with true
    by (symmetry; apply andb_true_iff; split; [apply Z.leb_le|apply Z.ltb_lt]; lia).
  replace ((0 <=? y - 1) && (y - 1 <? p_h p)) with true
    by (symmetry; apply andb_true_iff; split; [apply Z.leb_le|apply Z.ltb_lt]; lia).
  cbn [andb].
  assert (M : pat_top (side_of p y (X / 4)) (X mod 4) || pat_bot (side_of p (y - 1) (X / 4)) (X mod 4) = true).
  { rewrite (side_eff p y) by (assumption || lia). rewrite (side_eff p (y - 1)) by (assumption || lia).
    replace (y - 1 + 1) with y by lia.
    assert (R : forall v, 0 <= v < 1024 -> v <> 0 -> 0 <= raw v <= 3).
    { intros v L N. unfold raw. replace (v =? 0) with false by (symmetry; apply Z.eqb_neq; exact N).
      Z.to_euclidean_division_equations. lia. }
    assert (AR : forall y, 0 <= around p y (X / 4) <= 4).
    { intros z. unfold around. destruct ((0 <=? z) && (z <? p_h p)); [|lia]. apply raw_range. apply V. }
    assert (A1 : around p (y - 1) (X / 4) = raw (p_px p (y - 1) (X / 4))).
    { unfold around. replace ((0 <=? y - 1) && (y - 1 <? p_h p)) with true; [reflexivity|].
      symmetry; apply andb_true_iff; split; [apply Z.leb_le|apply Z.ltb_lt]; lia. }
    assert (B1 : around p y (X / 4) = raw (p_px p y (X / 4))).
    { unfold around. replace ((0 <=? y) && (y <? p_h p)) with true; [reflexivity|].
      symmetry; apply andb_true_iff; split; [apply Z.leb_le|apply Z.ltb_lt]; lia. }
    rewrite A1, B1.
    destruct (eff_meet (around p (y - 1 - 1) (X / 4)) (raw (p_px p (y - 1) (X / 4))) (raw (p_px p y (X / 4)))
                (around p (y + 1) (X / 4)) (AR _) (R _ (V _ _) NA) (R _ (V _ _) NB) (AR _) ST) as [M1 M2].
    assert (ER : forall a v b, 0 <= v <= 3 -> 0 <= eff a v b <= 3).
    { intros a v b Hv. unfold eff. assert (v = 0 \/ v = 1 \/ v = 2 \/ v = 3) as [-> | [-> | [-> | ->]]] by lia;
      repeat match goal with |- context [if ?b then _ else _] => destruct b end; cbn; lia. }
    apply top_bot; [apply ER; apply R; [apply V|assumption]|apply ER; apply R; [apply V|assumption]|exact M1|exact M2]. }
  destruct (pat_top (side_of p y (X / 4)) (X mod 4)); [left; reflexivity|].
  cbn [orb] in M. rewrite M. right. reflexivity.
Qed.
