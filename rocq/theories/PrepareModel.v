(** Model of when a build calls prepare() and get_image() of image files
    (grf/grf.py 603-622 and 645-667, grf/sprites.py prepare_files and
    get_image).  Definitions only.

    prepare() of ImageFile does nothing; it is there to be overridden (732), so
    what counts is the sequence of calls.  Sprites are those of TreeModel.v;
    prepare_files of a resource that is not a Sprite (grf.py 611-613) is the
    pass of Resource (223-224) for the sounds of the library. *)
From Coq Require Import ZArith List Bool.
From Verif Require Import Base CacheModel JsonModel TreeModel.
Import ListNotations.
Open Scope Z_scope.

(** A file of an image with the keyword arguments of the sprite. *)
Definition request := (bytes * list (bytes * json))%type.
Inductive call := Prepare (r : request) | Read (r : request).

(** prepare_files: 772-773 FileSprite, 898-900 SpriteWrapper (MoveSprite,
    QuantizeSprite), 223-224 Resource for the others. *)
Fixpoint prepare_files (t : tree) : list call :=
  match t with
  | TFile _ path _ _ _ kw => [Prepare (path, kw)]
  | TMove _ s | TQuant _ s => prepare_files s
  | TImage _ _ | TEmpty | TMask _ _ _ _ => []
  end.
(** get_real_data: the get_image calls of 775-776 FileSprite, reached from 395
    get_data_layers (through 927-928 in a QuantizeSprite), 637-638 WithMask and
    910-911 MoveSprite; an exception cuts the sequence short. *)
Fixpoint real_data_calls (t : tree) : list call :=
  match t with
  | TFile _ path _ _ _ kw => [Read (path, kw)]
  | TMove _ s | TQuant _ s => real_data_calls s
  | TMask _ s m _ => real_data_calls s ++ real_data_calls m
  | TImage _ _ | TEmpty => []
  end.

(** grf.py 603-622: every sprite is prepared unless the cache has it; None: a
    file is missing and write() raises. *)
Fixpoint preprocess (md5 : bytes -> key) (this : bytes) (W : world) (c : cache) (ts : list tree) : option (list call) :=
  match ts with
  | [] => Some []
  | t :: ts =>
      do p <- (match fp_data t with
               | None => Some (prepare_files t)
               | Some _ =>
                   do k <- cache_key md5 this W t;
                   Some (if is_cached c k then [] else prepare_files t) end);
      do r <- preprocess md5 this W c ts;
      Some (p ++ r)
  end.
(** grf.py 645-667 get_sprite_data for the sprites in the order they are
    written; [data t]: what get_real_data returns. *)
Fixpoint encode_calls (data : tree -> bytes) (md5 : bytes -> key) (this : bytes) (W : world) (d : disk) (c : cache) (ts : list tree) : list call :=
  match ts with
  | [] => []
  | t :: ts =>
      match fp_data t with
      | None => real_data_calls t ++ encode_calls data md5 this W d c ts
      | Some _ =>
          match cache_key md5 this W t with
          | None => []
          | Some k =>
              match cache_get d c k with
              | (c, Some _) => encode_calls data md5 this W d c ts
              | (c, None) =>
                  let '(d, c) := cache_set d c k (data t) in
                  real_data_calls t ++ encode_calls data md5 this W d c ts
              end
          end
      end
  end.
(** grf.py 726-728 and 576: the calls of one write().  [listed]: the sprites
    in the order of the actions; [written]: in the order they are encoded. *)
Definition build_calls (data : tree -> bytes) (md5 : bytes -> key) (this : bytes) (W : world) (d : disk) (clean : bool) (listed written : list tree)
  : option (list call) :=
  let c := cache_load d clean in
  do p <- preprocess md5 this W c listed;
  Some (p ++ encode_calls data md5 this W d c written).
