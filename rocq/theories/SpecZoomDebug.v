(** Specification for zoom debug builds and alternative sprites. *)
From Coq Require Import ZArith List Bool.
From Verif Require Import Base SpriteModel.
Import ListNotations.
Open Scope Z_scope.

(** The pixel of a layer at column x of row y. *)
Definition pixel (l : layer) (x y : nat) : option (list Z) :=
  match nth_error l y with Some row => nth_error row x | None => None end.
(** The colours of a zoom level: normal size red, 4x green, 2x blue, zoomed
    out twice cyan, four times yellow, eight times magenta; the other channels
    are dark. *)
Definition tint (zoom : Z) (c : Z * Z * Z) : Z * Z * Z :=
  let '(r, g, b) := c in
  if zoom =? 0 then (r, 0, 0)
  else if zoom =? 1 then (0, g, 0)
  else if zoom =? 2 then (0, 0, b)
  else if zoom =? 3 then (0, g, b)
  else if zoom =? 4 then (r, g, 0)
  else (r, 0, b).
Definition is_zoom (z : Z) : Prop := 0 <= z <= 5.
Definition is_byte (v : Z) : Prop := 0 <= v < 256.
(** Pixels of [n] bytes. *)
Definition byte_layer (n : nat) (l : layer) : Prop := Forall (Forall (fun p => List.length p = n /\ Forall is_byte p)) l.
(** A search for colours: 255 answers, none of them transparent. *)
Definition searches (best : Z -> list Z) : Prop :=
  forall zoom, List.length (best zoom) = 255%nat /\ Forall (fun c => 0 < c < 256) (best zoom).

(** What the game tells alternatives apart by (grf container version 2): the
    zoom level, and whether the record has colours or only palette indices. *)
Definition slot (record : bytes) : Z * bool := (nth 1 record 0, Z.testbit (nth 0 record 0) 0).
