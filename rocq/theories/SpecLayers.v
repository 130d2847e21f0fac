(** Specification vocabulary for C60 and C61: pixels of sprites. *)
From Coq Require Import ZArith List Bool.
From Verif Require Import SpecDecode SpecSprite.
Import ListNotations.
Open Scope Z_scope.

(** The colour, opacity and palette index layers of one pixel; [None]: the
    sprite has no such layer. *)
Record pixel := mk_pixel { x_rgb : option (list Z); x_alpha : option (list Z); x_mask : option (list Z) }.
Definition layer_at (l : option (list (list (list Z)))) (y x : Z) (p : option (list Z)) : Prop :=
  match l, p with
  | None, None => True
  | Some l, Some p => pixel_at l y x p
  | _, _ => False
  end.
(** The picture shows [v] in row [y], column [x]. *)
Definition pixel_of (p : picture) (y x : Z) (v : pixel) : Prop :=
  layer_at (p_rgb p) y x (x_rgb v) /\ layer_at (p_alpha p) y x (x_alpha v) /\ layer_at (p_mask p) y x (x_mask v).

(** Putting palette index [q] over a pixel; index 0 is transparent.  Where it
    is not, overdrawing also makes the pixel opaque and of the brightness that
    shows the index unchanged. *)
Definition put_mask (overdraw : bool) (q : Z) (v : pixel) : pixel :=
  if q =? 0 then mk_pixel (x_rgb v) (x_alpha v) (match x_mask v with Some m => Some m | None => Some [0] end)
  else if overdraw
  then mk_pixel (option_map (fun _ => [128; 128; 128]) (x_rgb v)) (option_map (fun _ => [255]) (x_alpha v)) (Some [q])
  else mk_pixel (x_rgb v) (x_alpha v) (Some [q]).

(** How opaque a pixel is: fully, without an opacity layer. *)
Definition opacity (v : pixel) : list Z := match x_alpha v with Some a => a | None => [255] end.

(** The layers of a pixel of an image of the given depth. *)
Definition split_pixel (bpp : Z) (p : list Z) : pixel :=
  if bpp =? 32 then mk_pixel (Some (firstn 3 p)) (Some (skipn 3 p)) None
  else if bpp =? 24 then mk_pixel (Some p) None None
  else mk_pixel None None (Some p).
