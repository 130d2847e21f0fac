(** What a sprite table and a sprite sheet are for, written without the model.

    A NewGRF reader that meets Action 1 with [sets] sets of [each] sprites takes
    the [sets * each] real sprites that follow as set 0, sprites 0..each-1, then
    set 1 and so on. *)
From Coq Require Import ZArith List Bool.
Import ListNotations.
Open Scope Z_scope.

(** ** Reading Action 1 *)

(** 01 <feature> <number of sets> FF <sprites per set: 2 bytes>, or
    01 <feature> 00 FF <first set> FF <number of sets> FF <sprites per set>. *)
Inductive reads_as : list Z -> Z -> Z -> Z -> Z -> Prop :=
| basic f n a b : 1 <= n <= 255 -> 0 <= a <= 255 -> 0 <= b <= 255 ->
    reads_as [1; f; n; 255; a; b] f 0 n (a + 256 * b)
| extended f a b c d e g : 0 <= a <= 255 -> 0 <= b <= 255 -> 0 <= c <= 255 ->
    0 <= d <= 255 -> 0 <= e <= 255 -> 0 <= g <= 255 ->
    reads_as [1; f; 0; 255; a; b; 255; c; d; 255; e; g] f (a + 256 * b) (c + 256 * d) (e + 256 * g).

(** [sprites] are the real sprites that follow an Action 1 with [each] sprites
    in each set: sprite [n] of set [k]. *)
Definition member {A} (sprites : list A) (each k n : Z) : option A :=
  if (0 <=? k) && (0 <=? n) && (n <? each)
  then nth_error sprites (Z.to_nat (k * each + n)) else None.

(** ** Regions of an image *)

(** The rectangle with corner (x, y) and size w by h shows [pix]. *)
Definition reads (at_ : Z -> Z -> Z) (x y w h : Z) (pix : Z -> Z -> Z) : Prop :=
  forall i j, 0 <= i < w -> 0 <= j < h -> at_ (x + i) (y + j) = pix i j.

Definition rect : Type := Z * Z * Z * Z.   (* x, y, w, h *)

(** Two rectangles at least [p] apart, in one direction or the other. *)
Definition apart (p : Z) (a b : rect) : Prop :=
  let '(x, y, w, h) := a in
  let '(x', y', w', h') := b in
  x + w + p <= x' \/ x' + w' + p <= x \/ y + h + p <= y' \/ y' + h' + p <= y.

(** A rectangle at least [p] from every edge of an image of size W by H. *)
Definition inside (p W H : Z) (a : rect) : Prop :=
  let '(x, y, w, h) := a in p <= x /\ x + w + p <= W /\ p <= y /\ y + h + p <= H.
