(** Zoom debug builds and alternative sprites: grf/sprites.py:158-181
    AlternativeSprites, 935-985 ZoomDebugRecolourSprite, grf/grf.py:592-623 and
    649-651 (the sprite map of _do_write).  Definitions only.

    The search for the nearest colour is a parameter [best]: for a zoom level
    the entries 1 to 255 of its table.  Arrays of palette indices carry the size
    of an element in bytes.  Not modelled: timers; whether a layer is copied
    before it is changed. *)
From Coq Require Import ZArith List Bool.
From Verif Require Import Base SpriteModel.
Import ListNotations.
Open Scope Z_scope.

(** common.py:5; sprites.py:937-944 ZOOM_DEBUG_COLOURS. *)
Definition ZOOM_DEBUG_COLOURS : list (Z * list Z) :=
  [(1, [0; 1; 0]); (2, [0; 0; 1]); (0, [1; 0; 0]); (3, [0; 1; 1]); (4, [1; 1; 0]); (5, [1; 0; 1])].
Fixpoint get {V} (k : Z) (l : list (Z * V)) : option V :=
  match l with [] => None | (k', v) :: r => if k =? k' then Some v else get k r end.

(** A table of colours, with the size of its elements: np.array of ints has
    8, astype(np.uint8) 1. *)
Record table := mk_table { t_size : Z; t_colours : list Z }.
(** 948-957 _get_debug_recolour; the class attribute _ZOOM_DEBUG_RECOLOURS is
    the state. *)
Definition get_debug_recolour (best : Z -> list Z) (zoom : Z) (st : list (Z * table)) : option (table * list (Z * table)) :=
  match get zoom st with
  | Some t => Some (t, st)
  | None =>
      do _ <- get zoom ZOOM_DEBUG_COLOURS;
      let res := 0 :: best zoom in
      Some (mk_table 8 res, (zoom, mk_table 1 res) :: st)
  end.

(** ni *= colour: every pixel, channel by channel (channels of one byte). *)
Definition tint_px (c p : list Z) : list Z := map (fun e => (fst e * snd e) mod 256) (combine p c).
(** table[nm]: an index beyond the table raises. *)
Definition look_px (t : list Z) (p : list Z) : option (list Z) :=
  match p with [i] => do! (0 <=? i); do v <- nth_error t (Z.to_nat i); Some [v] | _ => None end.
Fixpoint map_opt {A B} (f : A -> option B) (l : list A) : option (list B) :=
  match l with [] => Some [] | a :: r => do b <- f a; do bs <- map_opt f r; Some (b :: bs) end.
(** 963-976 get_data_layers: [d] is what the sprite returns, its mask of one
    byte per pixel; the size of the elements of the new mask comes with it. *)
Definition debug_layers (best : Z -> list Z) (zoom : Z) (d : layers) (st : list (Z * table)) :
    option (layers * Z * list (Z * table)) :=
  do rgb <- match l_rgb d with
            | None => Some None
            | Some ni => do c <- get zoom ZOOM_DEBUG_COLOURS; Some (Some (map (map (tint_px c)) ni))
            end;
  match l_mask d with
  | None => Some (mk_layers (l_w d) (l_h d) rgb (l_alpha d) None, 1, st)
  | Some nm =>
      do (t, st) <- get_debug_recolour best zoom st;
      do nm <- map_opt (map_opt (look_px (t_colours t))) nm;
      Some (mk_layers (l_w d) (l_h d) rgb (l_alpha d) (Some nm), t_size t, st)
  end.
(** 416-461: the buffer handed to the compressor for a picture of indices only
    ([size] bytes per element, least significant first). *)
Definition index_buffer (size : Z) (px : list (list Z)) : bytes :=
  flat_map (fun p => flat_map (fun v => v :: repeat 0 (Z.to_nat (size - 1))) p) px.

(** ** The sprite map *)
(** A resource in the order met, or the wrapper made at a place of that
    order: a wrapper is a new object. *)
Inductive object := Given (i : nat) | Wrapper (place i : nat).
Definition object_eqb (a b : object) : bool :=
  match a, b with
  | Given i, Given j => Nat.eqb i j
  | Wrapper p i, Wrapper q j => Nat.eqb p q && Nat.eqb i j
  | _, _ => false
  end.
(** 592-601: [is_sprite] is isinstance(s, Sprite). *)
Fixpoint sprite_map_from (debug : bool) (is_sprite : nat -> bool) (place : nat) (l : list nat) (m : list (object * object)) : list (object * object) :=
  match l with
  | [] => m
  | i :: r =>
      let s := if is_sprite i && debug then Wrapper place i else Given i in
      sprite_map_from debug is_sprite (S place) r ((s, s) :: m)
  end.
Definition sprite_map (debug : bool) (is_sprite : nat -> bool) (l : list nat) : list (object * object) :=
  sprite_map_from debug is_sprite O l [].
(** sprite_map[s]: None is KeyError. *)
Fixpoint find_object (o : object) (m : list (object * object)) : option object :=
  match m with [] => None | (k, v) :: r => if object_eqb o k then Some v else find_object o r end.
(** 607-614: the objects whose fingerprints are taken; other resources are
    skipped. *)
Fixpoint prepared (is_sprite : nat -> bool) (l : list nat) (m : list (object * object)) : option (list object) :=
  match l with
  | [] => Some []
  | i :: r =>
      if is_sprite i then do o <- find_object (Given i) m; do os <- prepared is_sprite r m; Some (o :: os)
      else prepared is_sprite r m
  end.
(** 649-665, 683-688: the objects whose data is written for the resources
    [written], after the preparation. *)
Definition written_objects (debug : bool) (is_sprite : nat -> bool) (l written : list nat) : option (list object) :=
  let m := sprite_map debug is_sprite l in
  do _ <- prepared is_sprite l m;
  map_opt (fun i => find_object (Given i) m) written.

(** ** Alternative sprites *)
(** The attributes zoom and bpp (None: that of the picture). *)
Record alt := mk_alt { alt_zoom : Z; alt_bpp : option Z }.
Definition bpp_eqb (a b : option Z) : bool :=
  match a, b with None, None => true | Some a, Some b => a =? b | _, _ => false end.
Definition alt_eqb (a b : alt) : bool := (alt_zoom a =? alt_zoom b) && bpp_eqb (alt_bpp a) (alt_bpp b).
(** len(set(...)) *)
Fixpoint distinct_count (l : list alt) : Z :=
  match l with [] => 0 | a :: r => if existsb (alt_eqb a) r then distinct_count r else 1 + distinct_count r end.
(** 159-166 __init__: None is ValueError. *)
Definition alternatives (l : list alt) : option (list alt) := do! (distinct_count l =? len l); Some l.
(** 168-172 get_sprite; the place of the sprite found. *)
Definition alt_match (zoom bpp : option Z) (s : alt) : bool :=
  match zoom with None => true | Some z => alt_zoom s =? z end &&
  match bpp with None => true | Some b => bpp_eqb (alt_bpp s) (Some b) end.
Fixpoint get_sprite (zoom bpp : option Z) (l : list alt) : option nat :=
  match l with
  | [] => None
  | s :: r => if alt_match zoom bpp s then Some O else option_map S (get_sprite zoom bpp r)
  end.
(** 366-396: the depth of the picture written; [picture] is that of the
    file.  437-447: bit 0 of the first byte says that there are colours. *)
Definition written_bpp (picture : Z) (s : alt) : Z := match alt_bpp s with Some b => b | None => picture end.
Definition record_start (picture : Z) (s : alt) : bytes :=
  let bpp := written_bpp picture s in
  [64 + (if bpp =? 8 then 4 else if bpp =? 24 then 1 else 3); alt_zoom s].
