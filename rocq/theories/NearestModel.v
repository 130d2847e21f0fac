(** Model of the search for the nearest palette colour and of the recolourings
    made with it (grf/colour.py 149-154, grf/sprites.py 231-247).  Definitions
    only.

    Colours are triples of numbers of one fixed precision (integers after
    scaling): numpy's rounding of products and sums, and NaN, are not modelled.
    [palette] is OKLAB_PALETTE, the 256 colours of the game. *)
From Coq Require Import ZArith List Bool.
From Verif Require Import Base TreeModel.
Import ListNotations.
Open Scope Z_scope.

Definition colour := (Z * Z * Z)%type.
(** np.sum((a - b) ** 2) *)
Definition distance (a b : colour) : Z :=
  let '(a1, a2, a3) := a in let '(b1, b2, b3) := b in
  (a1 - b1) * (a1 - b1) + (a2 - b2) * (a2 - b2) + (a3 - b3) * (a3 - b3).

(** np.argmin: the position of the first smallest element; ValueError for
    none. *)
Fixpoint argmin_from (best : nat) (least : Z) (i : nat) (l : list Z) : nat :=
  match l with
  | [] => best
  | x :: l => if x <? least then argmin_from i x (S i) l else argmin_from best least (S i) l
  end.
Definition argmin (l : list Z) : option nat :=
  match l with [] => None | x :: l => Some (argmin_from 0 x 1 l) end.

(** 150 OKLAB_PALETTE.take(in_range, axis=0): IndexError outside the palette
    (a negative index, which counts from the end, is refused here). *)
Fixpoint take (palette : list colour) (in_range : list Z) : option (list colour) :=
  match in_range with
  | [] => Some []
  | i :: is =>
      do! (0 <=? i);
      do c <- nth_error palette (Z.to_nat i);
      do cs <- take palette is;
      Some (c :: cs)
  end.
(** 149-152 oklab_find_best_colour of one colour. *)
Definition find_best (palette : list colour) (x : colour) (in_range : list Z) : option Z :=
  do cs <- take palette in_range;
  do k <- argmin (map (fun c => distance c x) cs);
  nth_error in_range k.
(** 149-154 of an array of colours: row xi of the table holds the distances of
    x[xi] from every colour. *)
Fixpoint argmins (rows : list (list Z)) : option (list nat) :=
  match rows with [] => Some [] | r :: rows => do k <- argmin r; do ks <- argmins rows; Some (k :: ks) end.
Fixpoint pick (in_range : list Z) (ks : list nat) : option (list Z) :=
  match ks with [] => Some [] | k :: ks => do i <- nth_error in_range k; do is <- pick in_range ks; Some (i :: is) end.
Definition find_best_all (palette : list colour) (xs : list colour) (in_range : list Z) : option (list Z) :=
  do cs <- take palette in_range;
  do ks <- argmins (map (fun x => map (fun c => distance x c) cs) xs);
  pick in_range ks.

(** sprites.py 242-248 PaletteRemap.oklab_from_function: the table [remap] of
    256 entries; remap[i] = ... raises outside it. *)
Fixpoint from_function (palette : list colour) (f : colour -> colour) (remap_range : list Z) (remap : list Z) : option (list Z) :=
  match remap_range with
  | [] => Some remap
  | i :: is =>
      do! (0 <=? i);
      do c <- nth_error palette (Z.to_nat i);
      do b <- find_best palette (f c) SAFE_COLOURS;
      do remap <- remap_set i b remap;
      from_function palette f is remap
  end.
Definition oklab_from_function (palette : list colour) (f : colour -> colour) (remap_range : list Z) : option (list Z) :=
  from_function palette f remap_range identity_remap.
