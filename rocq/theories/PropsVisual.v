(** C82: the visual effect of a train; C83: the picture of a palette. *)
From Coq Require Import ZArith List Bool Lia.
From Verif Require Import Base VisualModel.
Import ListNotations.
Open Scope Z_scope.

(** How the game reads property 22 of a train: the position in bits 0 to 3, the
    kind of effect in bits 4 and 5, bit 6 turns the effect off, bit 7 turns the
    power of wagons off. *)
Record read := mk_read { r_position : Z; r_kind : Z; r_off : bool; r_wagons_powered : bool }.
Definition engine_reads (v : Z) : read :=
  mk_read (v mod 16) (v / 16 mod 4) (Z.testbit v 6) (negb (Z.testbit v 7)).
(** What a script asks for. *)
Definition asked (e : effect) (position : Z) (wagon_power : bool) : read :=
  mk_read position (match e with DEFAULT | DISABLE => 0 | STEAM => 1 | DIESEL => 2 | ELECTRIC => 3 end)
    (match e with DISABLE => true | _ => false end) wagon_power.

Lemma positions (P : Z -> Prop) : (forall n, (n < 16)%nat -> P (Z.of_nat n)) -> forall p, 0 <= p < 16 -> P p.
Proof. intros H p R. rewrite <- (Z2Nat.id p) by lia. apply H. lia. Qed.

(** Without wagon power the effect and its position are read as asked. *)
Theorem C82_effect_partial : forall e p, 0 <= p < 16 ->
  let r := engine_reads (visual_effect_and_powered (effect_value e) p false) in
  r_position r = p /\ r_kind r = r_kind (asked e p false) /\ r_off r = r_off (asked e p false).
Proof.
  intros e p R. revert p R. apply positions. intros n L.
  do 16 (destruct n as [|n]; [destruct e; vm_compute; auto|]). lia.
Qed.
(** With wagon power, the default, every effect is off, at position 15. *)
Theorem C82_powered_refuted : forall e p, 0 <= p < 16 ->
  visual_effect_and_powered (effect_value e) p true = 127
  /\ r_off (engine_reads (visual_effect_and_powered (effect_value e) p true)) = true
  /\ r_position (engine_reads (visual_effect_and_powered (effect_value e) p true)) = 15.
Proof.
  intros e p R. revert p R. apply positions. intros n L.
  do 16 (destruct n as [|n]; [destruct e; vm_compute; auto|]). lia.
Qed.
(** The power of wagons cannot be turned off. *)
Theorem C82_wagons_refuted : forall e p w, 0 <= p < 16 ->
  r_wagons_powered (engine_reads (visual_effect_and_powered (effect_value e) p w)) = true.
Proof.
  intros e p w R. revert p R. apply positions. intros n L.
  do 16 (destruct n as [|n]; [destruct e, w; vm_compute; auto|]). lia.
Qed.
(** So nothing that can be asked for is read as asked. *)
Theorem C82_never_as_asked_refuted : forall e p w, 0 <= p < 16 ->
  engine_reads (visual_effect_and_powered (effect_value e) p w) <> asked e p w.
Proof.
  intros e p w R E. destruct w.
  - destruct (C82_powered_refuted e p R) as (V & _ & _). rewrite V in E. destruct e; vm_compute in E; discriminate.
  - pose proof (C82_wagons_refuted e p false R) as P. rewrite E in P. discriminate.
Qed.
Example C82_case : engine_reads (visual_effect_and_powered (effect_value STEAM) 4 false) = mk_read 4 1 false true
  /\ asked STEAM 4 true = mk_read 4 1 false true
  /\ engine_reads (visual_effect_and_powered (effect_value STEAM) 4 true) = mk_read 15 3 true true.
Proof. repeat split. Qed.

(** ** C83 *)
Lemma fill_at p x0 y0 size c x y :
  fill p x0 y0 size c x y =
  match p x y with None => None | Some old => if (x0 <=? x) && (x <? x0 + size) && (y0 <=? y) && (y <? y0 + size) then Some c else Some old end.
Proof. reflexivity. Qed.
Lemma squares_at : forall palette i size p x y, 0 < size -> 0 <= i -> 0 <= x < 16 * size -> 0 <= y ->
  squares i palette size p x y =
  match p x y with
  | None => None
  | Some old =>
      let k := y / size * 16 + x / size in
      if i <=? k then Some (nth (Z.to_nat (k - i)) palette old) else Some old
  end.
Proof.
  induction palette as [|c r IH]; intros i size p x y S I X Y; cbn [squares].
  - destruct (p x y) as [old|]; [|reflexivity]. cbv zeta. destruct (i <=? _); [|reflexivity].
    destruct (Z.to_nat _); reflexivity.
  - rewrite IH by lia. rewrite fill_at. destruct (p x y) as [old|]; [|reflexivity]. cbv zeta.
    assert (D : forall a, x / size = a <-> a * size <= x < a * size + size).
    { intro a. split; intro H; [subst a; Z.to_euclidean_division_equations; nia|]. symmetry. apply (Z.div_unique x size a (x - a * size)); lia. }
    assert (D' : forall a, y / size = a <-> a * size <= y < a * size + size).
    { intro a. split; intro H; [subst a; Z.to_euclidean_division_equations; nia|]. symmetry. apply (Z.div_unique y size a (y - a * size)); lia. }
    assert (B : 0 <= x / size < 16) by (split; [apply Z.div_pos; lia|apply Z.div_lt_upper_bound; lia]).
    assert (B' : 0 <= y / size) by (apply Z.div_pos; lia).
    set (k := y / size * 16 + x / size).
    assert (Ek : k = i <-> x / size = i mod 16 /\ y / size = i / 16).
    { unfold k. split; [intros <-|intros [-> ->]].
      - split; [apply (Z.mod_unique _ _ (y / size)); lia|apply (Z.div_unique _ _ _ (x / size)); lia].
      - rewrite (Z.div_mod i 16) at 3 by lia. lia. }
    destruct ((_ <=? x) && (x <? _) && (_ <=? y) && (y <? _)) eqn:F.
    + assert (k = i) as K.
      { apply Ek. rewrite !andb_true_iff, !Z.leb_le, !Z.ltb_lt in F. split; [apply D|apply D']; lia. }
      rewrite K. replace (i + 1 <=? i) with false by (symmetry; apply Z.leb_gt; lia).
      rewrite Z.leb_refl, Z.sub_diag. reflexivity.
    + assert (k <> i) as K.
      { intro K. apply Ek in K as [K1 K2]. apply D in K1. apply D' in K2.
        rewrite !andb_false_iff, !Z.leb_gt, !Z.ltb_ge in F. lia. }
      destruct (i + 1 <=? k) eqn:G.
      * apply Z.leb_le in G. replace (i <=? k) with true by (symmetry; apply Z.leb_le; lia).
        replace (Z.to_nat (k - i)) with (Datatypes.S (Z.to_nat (k - (i + 1)))) by lia. reflexivity.
      * apply Z.leb_gt in G. replace (i <=? k) with false by (symmetry; apply Z.leb_gt; lia). reflexivity.
Qed.

(** The picture has 16 by 16 squares; the square in column [a] and row [b] has
    the colour 16 * b + a, and is black if the palette has no such colour. *)
Theorem C83_squares : forall palette size a b x y, 0 < size -> 0 <= a < 16 -> 0 <= b < 16 -> 0 <= x < size -> 0 <= y < size ->
  make_palette_image palette size (a * size + x) (b * size + y) = Some (nth (Z.to_nat (16 * b + a)) palette (0, 0, 0)).
Proof.
  intros palette size a b x y S A B X Y. unfold make_palette_image. rewrite squares_at by nia.
  unfold start. replace ((0 <=? a * size + x) && (a * size + x <? 16 * size) && (0 <=? b * size + y) && (b * size + y <? 16 * size)) with true.
  - cbv zeta. replace ((b * size + y) / size) with b by (apply (Z.div_unique _ _ _ y); lia).
    replace ((a * size + x) / size) with a by (apply (Z.div_unique _ _ _ x); lia).
    replace (0 <=? b * 16 + a) with true by (symmetry; apply Z.leb_le; lia).
    rewrite Z.sub_0_r. now rewrite (Z.mul_comm b 16).
  - symmetry. rewrite !andb_true_iff, !Z.leb_le, !Z.ltb_lt. nia.
Qed.
Lemma squares_none : forall palette i size p x y, p x y = None -> squares i palette size p x y = None.
Proof. induction palette as [|c r IH]; intros; cbn [squares]; [assumption|]. apply IH. unfold fill. now rewrite H. Qed.
Theorem C83_size : forall palette size x y, 0 < size ->
  (make_palette_image palette size x y <> None <-> 0 <= x < 16 * size /\ 0 <= y < 16 * size).
Proof.
  intros palette size x y S.
  destruct ((0 <=? x) && (x <? 16 * size) && (0 <=? y) && (y <? 16 * size)) eqn:E.
  - rewrite !andb_true_iff, !Z.leb_le, !Z.ltb_lt in E. split; [lia|]. intros _. unfold make_palette_image.
    rewrite squares_at by lia. unfold start. replace ((0 <=? x) && _ && _ && _) with true.
    + cbv zeta. destruct (0 <=? _); discriminate.
    + symmetry. rewrite !andb_true_iff, !Z.leb_le, !Z.ltb_lt. lia.
  - split; [|intros [X Y]; rewrite !andb_false_iff, !Z.leb_gt, !Z.ltb_ge in E; lia].
    intro H. exfalso. apply H. apply squares_none. unfold start. now rewrite E.
Qed.

Example C83_case : make_palette_image [(1, 2, 3); (4, 5, 6)] 20 25 3 = Some (4, 5, 6)
  /\ make_palette_image [(1, 2, 3); (4, 5, 6)] 20 40 3 = Some (0, 0, 0) /\ make_palette_image [(1, 2, 3)] 20 320 3 = None.
Proof. repeat split. Qed.

Print Assumptions C82_effect_partial.
Print Assumptions C82_powered_refuted.
Print Assumptions C82_wagons_refuted.
Print Assumptions C82_never_as_asked_refuted.
Print Assumptions C83_squares.
Print Assumptions C83_size.
