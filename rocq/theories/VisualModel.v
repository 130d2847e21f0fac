(** Model of the visual effect value and of the palette picture:
    grf/lib/train.py:36-38, grf/actions.py:1309-1314, grf/colour.py:161-171.
    Definitions only. *)
From Coq Require Import ZArith List Bool.
From Verif Require Import Base.
Import ListNotations.
Open Scope Z_scope.

(** actions.py:1309-1314 TrainVisualEffect *)
Inductive effect := DEFAULT | STEAM | DIESEL | ELECTRIC | DISABLE.
Definition effect_value (e : effect) : Z :=
  match e with DEFAULT => 0 | STEAM => 16 | DIESEL => 32 | ELECTRIC => 48 | DISABLE => 64 end.

(** lib/train.py:36-38 Train.visual_effect_and_powered; [True * 0x7f] is 0x7f. *)
Definition visual_effect_and_powered (e : Z) (position : Z) (wagon_power : bool) : Z :=
  Z.lor (Z.lor e position) (if wagon_power then 127 else 0).

(** colour.py:165-171 make_palette_image: the array starts black; entry i fills
    a square of [size] pixels.  A pixel is a colour; coordinates outside of the
    array do not exist (numpy slices are cut at its edge). *)
Definition colour : Type := (Z * Z * Z)%type.
Definition picture : Type := Z -> Z -> option colour.
Definition black : colour := (0, 0, 0).
Definition start (size : Z) : picture := fun x y =>
  if (0 <=? x) && (x <? 16 * size) && (0 <=? y) && (y <? 16 * size) then Some black else None.
Definition fill (p : picture) (x0 y0 size : Z) (c : colour) : picture := fun x y =>
  match p x y with
  | Some old => if (x0 <=? x) && (x <? x0 + size) && (y0 <=? y) && (y <? y0 + size) then Some c else Some old
  | None => None
  end.
Fixpoint squares (i : Z) (palette : list colour) (size : Z) (p : picture) : picture :=
  match palette with
  | [] => p
  | c :: r => squares (i + 1) r size (fill p (i mod 16 * size) (i / 16 * size) size c)
  end.
Definition make_palette_image (palette : list colour) (size : Z) : picture := squares 0 palette size (start size).
