(** Specification: which action announces a sprite, from the description of
    the NewGRF format: actions 1, 5 and A are followed by graphics, action 11
    by sounds.  A record is its type (255: an action, 253: a reference to a
    sprite by its number) and its data. *)
From Coq Require Import ZArith List Bool String.
From Verif Require Import Base PyValue.
Import ListNotations.
Open Scope string_scope.
Open Scope list_scope.
Open Scope Z_scope.

Notation record := (Z * bytes)%type.
(** Words, least significant byte first; bytes that may be extended. *)
Definition word (d : bytes) : option Z := match d with lo :: hi :: _ => Some (Z.lor lo (Z.shiftl hi 8)) | _ => None end.
Definition xbyte (d : bytes) : option (Z * bytes) :=
  match d with
  | [] => None
  | b :: r => if b =? 255 then match word r with Some w => Some (w, skipn 2 r) | None => None end else Some (b, r)
  end.
(** The groups of sprites have a name: the feature, action5 or action_a. *)
Definition NAMES : list (Z * bytes) :=
  map (fun e => (fst e, txt (snd e)))
    [(0x00, "train"); (0x01, "rv"); (0x02, "ship"); (0x03, "aircraft"); (0x04, "station"); (0x05, "canal");
     (0x06, "bridge"); (0x07, "house"); (0x08, "global_var"); (0x09, "industry_tile"); (0x0a, "industry");
     (0x0b, "cargo"); (0x0c, "sound_effect"); (0x0d, "airport"); (0x0e, "signal"); (0x0f, "object");
     (0x10, "railtype"); (0x11, "airport_tile"); (0x12, "roadtype"); (0x13, "tramtype"); (0x14, "road_stop")].
Definition name_of (f : Z) : option bytes := option_map snd (find (fun e => fst e =? f) NAMES).

(** [n] sprites of the group, or [n] sounds. *)
Inductive announcement := Graphics (name : bytes) (n : Z) | Sounds (n : Z).
(** 01 feature sets ents, or 01 feature 00 first sets ents *)
Definition announced1 (d : bytes) : option announcement :=
  match d with
  | f :: sets :: d =>
      do name <- name_of f;
      if sets =? 0 then
        do (_, d) <- xbyte d; do (sets, d) <- xbyte d; do (n, _) <- xbyte d; Some (Graphics name (sets * n))
      else do (n, _) <- xbyte d; Some (Graphics name (sets * n))
  | _ => None
  end.
(** 05 type num, then an offset if the type has bit 7 *)
Definition announced5 (d : bytes) : option announcement :=
  match d with
  | t :: d =>
      do (n, d) <- xbyte d;
      if Z.testbit t 7 then do _ <- xbyte d; Some (Graphics (txt "action5") n) else Some (Graphics (txt "action5") n)
  | _ => None
  end.
(** 0A num-sets, then num first (a word) for each set *)
Fixpoint sets_of (k : nat) (d : bytes) : option Z :=
  match k with
  | O => Some 0
  | S k => match d with n :: _ :: _ :: d => do m <- sets_of k d; Some (n + m) | _ => None end
  end.
Definition announcedA (d : bytes) : option announcement :=
  match d with k :: d => do n <- sets_of (Z.to_nat k) d; Some (Graphics (txt "action_a") n) | _ => None end.
Definition announced (r : record) : option announcement :=
  if fst r =? 255 then
    match snd r with
    | 1 :: d => announced1 d
    | 5 :: d => announced5 d
    | 10 :: d => announcedA d
    | 17 :: d => do n <- word d; Some (Sounds n)
    | _ => None
    end
  else None.

(** The sprite a record refers to. *)
Definition reference (r : record) : option Z :=
  if fst r =? 253 then
    match snd r with [a; b; c; d] => Some (Z.lor (Z.lor (Z.lor a (Z.shiftl b 8)) (Z.shiftl c 16)) (Z.shiftl d 24)) | _ => None end
  else None.
Definition references (l : list record) : list Z := flat_map (fun r => match reference r with Some i => [i] | None => [] end) l.
(** How often a group of this name was announced. *)
Definition earlier (name : bytes) (l : list record) : Z :=
  len (filter (fun r => match announced r with Some (Graphics n _) => if list_eq_dec Z.eq_dec n name then true else false | _ => false end) l).
(** An action, or a reference; none of them announces sprites. *)
Definition plain (r : record) : Prop := (fst r = 255 \/ exists i, reference r = Some i) /\ announced r = None.
(** A member of a list of sounds: a reference or an imported sound
    (FE 00 grfid number). *)
Definition sound (r : record) : Prop :=
  (exists i, reference r = Some i) \/ (fst r = 255 /\ exists a b c d lo hi rest, snd r = 254 :: 0 :: a :: b :: c :: d :: lo :: hi :: rest).
(** Records of every kind a file may have: references of four bytes. *)
Definition readable (r : record) : Prop := snd r <> [] /\ (fst r = 253 -> len (snd r) = 4).
(** The name of a group of sprites: name_number. *)
Definition numbered (name : bytes) (k : Z) (g : bytes) : Prop :=
  exists digits, g = name ++ 95 :: digits /\ digits <> [] /\ forallb (fun c => (48 <=? c) && (c <=? 57)) digits = true /\
    fold_left (fun a c => 10 * a + (c - 48)) digits 0 = k.

(** The actions (records of type 255 with more than one byte) that start with
    the byte [a], and the bytes they take in the file: size, type and data. *)
Definition actions_of (a : Z) (l : list record) : list record :=
  filter (fun r => (fst r =? 255) && match snd r with b :: _ :: _ => b =? a | _ => false end) l.
Definition file_bytes (l : list record) : Z := fold_right Z.add 0 (map (fun r => 4 + 1 + len (snd r)) l).
