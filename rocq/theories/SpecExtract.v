(** Specification: what a real sprite shows, and what a piece of a saved image
    file shows. *)
From Coq Require Import ZArith List Bool.
From Verif Require Import Base DecodeModel ExtractModel.
Import ListNotations.
Open Scope Z_scope.

(** A pixel of a sprite has the channels its type announces (bit 0: red,
    green, blue; bit 1: alpha; bit 2: palette index), in this order.  A colour
    without alpha is opaque. *)
Definition colour_of (t : Z) (p : list Z) : option (list Z) :=
  if Z.testbit t 0 then Some (firstn 3 p ++ [if Z.testbit t 1 then nth 3 p 0 else 255]) else None.
Definition mask_of (t : Z) (p : list Z) : option Z := if Z.testbit t 2 then Some (last p 0) else None.
(** Alpha without a colour. *)
Definition just_alpha (t : Z) : bool := Z.testbit t 1 && negb (Z.testbit t 0).

(** The file at [path] is the one written last. *)
Fixpoint stored (path : bytes) (files : list (bytes * file)) : option file :=
  match files with
  | [] => None
  | (p, f) :: r => match stored path r with Some g => Some g | None => if list_eq_dec Z.eq_dec p path then Some f else None end
  end.
(** Pixel (u, v) of the w*h pixels at (x, y) of an image; nothing if they are
    not all inside. *)
Definition inside (W H x y w h : Z) : bool := (0 <=? x) && (0 <=? y) && (x + w <=? W) && (y + h <=? H).
Definition crop_mask (files : list (bytes * file)) (path : bytes) (x y w h u v : Z) : option Z :=
  match stored path files with
  | Some (FMask W H c) => if inside W H x y w h then Some (c (x + u) (y + v)) else None
  | _ => None
  end.
Definition crop_colour (files : list (bytes * file)) (path : bytes) (x y w h u v : Z) : option (list Z) :=
  match stored path files with
  | Some (FColour W H c) => if inside W H x y w h then Some (c (x + u) (y + v)) else None
  | _ => None
  end.
(** The graphics of the file with id [i], in order. *)
Definition graphics_of (i : Z) (l : list real) : list gfx :=
  flat_map (fun r => match r with RG s => if f_id s =? i then [s] else [] | ROther _ => [] end) l.
(** A statement: the sprite, its place, its files. *)
Definition e_sprite (e : entry) : gfx := fst (fst (fst (fst e))).
Definition e_x (e : entry) : Z := snd (fst (fst (fst e))).
Definition e_y (e : entry) : Z := snd (fst (fst e)).
Definition e_mask (e : entry) : option bytes := snd (fst e).
Definition e_colour (e : entry) : option bytes := snd e.
(** The statements for the sprite [i]. *)
Definition statements (table : list (Z * list entry)) (i : Z) : list entry :=
  match find (fun e => fst e =? i) table with Some (_, l) => l | None => [] end.
(** The piece of the files the statement names shows the channels of the
    sprite, pixel by pixel (the decoded picture is a list of rows); where a
    file of a channel the sprite does not have is named, it shows index 255 or
    transparent black. *)
Definition entry_shows (container : Z) (fs : list (bytes * file)) (e : entry) : Prop :=
  let s := f_s (e_sprite e) in
  let w := g_width s in let h := g_height s in
  exists img rest, decode_sprite s container (f_pos (e_sprite e)) = Some (img, rest) /\
  len img = h /\ Forall (fun row => len row = w) img /\
  forall v u row p, nth_error img v = Some row -> nth_error row u = Some p ->
    let x := Z.of_nat u in let y := Z.of_nat v in
    (forall m, mask_of (g_type s) p = Some m ->
       exists path, e_mask e = Some path /\ crop_mask fs path (e_x e) (e_y e) w h x y = Some m) /\
    (forall k, colour_of (g_type s) p = Some k ->
       exists path, e_colour e = Some path /\ crop_colour fs path (e_x e) (e_y e) w h x y = Some k) /\
    (Z.testbit (g_type s) 2 = false -> forall path, e_mask e = Some path ->
       crop_mask fs path (e_x e) (e_y e) w h x y = Some 255) /\
    (Z.testbit (g_type s) 0 = false -> forall path, e_colour e = Some path ->
       crop_colour fs path (e_x e) (e_y e) w h x y = Some [0; 0; 0; 0]).
(** Sprites as read from a file: bytes, and a size that is not negative. *)
Definition from_file (l : list real) : Prop := forall s, In (RG s) l -> Forall (fun b => 0 <= b < 256) (f_pos s) /\ 0 <= g_width (f_s s) /\ 0 <= g_height (f_s s).
(** The bytes a sprite takes in the file, compressed, and what they say. *)
Definition stored_as (s : gfx) (data : bytes) (size : Z) : Prop := exists rest, decode_data (g_decomp (f_s s)) (f_pos s) = Some (data, rest) /\ size = len (f_pos s) - len rest.
