(** Specification vocabulary for C62: pictures of buildings on tiles. *)
From Coq Require Import ZArith List Bool.
From Verif Require Import IndustryModel.
Import ListNotations.
Open Scope Z_scope.

(** Where the game draws the corner of tile [(x, y)] on the screen: one tile
    along x is 32 pixels to the left and 16 down, one along y 32 to the right
    and 16 down. *)
Definition screen (t : Z * Z) : Z * Z := (32 * (snd t - fst t), 16 * (fst t + snd t)).

(** The piece shows pixel [(px, py)] of the building's picture. *)
Definition shows (b : building) (q : piece) (px py : Z) : Prop :=
  q_x q <= b_x b + px < q_x q + q_w q /\ q_y q <= b_y b + py < q_y q + q_h q.
(** Where that pixel appears when the piece is drawn on tile [t]. *)
Definition appears (b : building) (q : piece) (t : Z * Z) (px py : Z) : Z * Z :=
  (fst (screen t) + q_xofs q + (b_x b + px - q_x q), snd (screen t) + q_yofs q + (b_y b + py - q_y q)).
(** Where it belongs: the whole picture drawn on the front tile, (w, h). *)
Definition belongs (b : building) (px py : Z) : Z * Z :=
  (fst (screen (b_w b, b_h b)) + b_xofs b + px, snd (screen (b_w b, b_h b)) + b_yofs b + py).

(** The columns of the picture above the ground the building stands on: 32
    pixels for every tile along x and along y. *)
Definition over_ground (b : building) (px : Z) : Prop := - b_xofs b - 32 * b_h b < px <= - b_xofs b + 32 * b_w b.

(** Tiles of the building, counted from 1. *)
Definition own_tile (b : building) (t : Z * Z) : Prop := 1 <= fst t <= b_w b /\ 1 <= snd t <= b_h b.

(** The tiles a building stands on when its back corner is put on (x0, y0). *)
Definition stands_on (b : building) (x0 y0 : Z) (p : Z * Z) : Prop :=
  x0 <= fst p < x0 + b_w b /\ y0 <= snd p < y0 + b_h b.
(** The whole picture drawn on its front tile. *)
Definition belongs_at (b : building) (x0 y0 px py : Z) : Z * Z :=
  let front := screen (x0 + b_w b - 1, y0 + b_h b - 1) in (fst front + b_xofs b + px, snd front + b_yofs b + py).
(** What the game's variable relative_pos gives on tile [p]: x in the low, y
    in the high byte. *)
Definition relative_pos (p : Z * Z) : Z := 256 * snd p + fst p.
