(** Model of the hexadecimal dumps of sprites (grf/common.py 80-91, 233-234).
    Definitions only. *)
From Coq Require Import ZArith List Bool.
From Verif Require Import Base StringsModel ParserModel PyTextModel.
Import ListNotations.
Open Scope Z_scope.

(** s[:k] of python: a negative k counts from the end. *)
Definition slice_to (k : Z) (s : list Z) : list Z :=
  if 0 <=? k then firstn (Z.to_nat k) s else firstn (Z.to_nat (len s + k)) s.

(** common.py:80-87 hex_str of bytes or of a string; [n] is the limit, None
    for none.  A string is the list of its code points. *)
Definition hex_str (s : list Z) (n : option Z) : bytes :=
  let cut := match n with Some n => n <? len s | None => false end in
  let s := match n with Some n => if cut then slice_to (n - 3) s else s | None => s end in
  joins [58] (map fmt_02x s) ++ (if cut then [46; 46; 46] else []).

(** str.split(':'), which gives one part more than there are colons. *)
Fixpoint split_colon (s : bytes) : list bytes :=
  match s with
  | [] => [[]]
  | c :: s =>
      if c =? 58 then [] :: split_colon s
      else match split_colon s with [] => [[c]] | p :: ps => (c :: p) :: ps end
  end.
(** common.py:90-91 str_hex; None is the ValueError of int(x, 16) or of
    bytes().  Of the texts int accepts only hexadecimal digits are modelled:
    spaces around them, a sign, 0x and underscores are refused here. *)
Fixpoint parts_hex (ps : list bytes) : option bytes :=
  match ps with
  | [] => Some []
  | p :: ps => do v <- int16 p; do! byteb v; do vs <- parts_hex ps; Some (v :: vs)
  end.
Definition str_hex (s : bytes) : option bytes := parts_hex (split_colon s).

(** common.py:233-234 DataReader.hex_str: the next n bytes, without moving. *)
Definition reader_hex_str (data : bytes) (offset n : nat) : bytes :=
  hex_str (firstn n (skipn offset data)) None.
