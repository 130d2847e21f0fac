(** Python expressions as printed and read by SpecPython and PyTextModel.
    Definitions only. *)
From Coq Require Import ZArith List Bool String Ascii.
From Verif Require Import Base.
Import ListNotations.
Open Scope Z_scope.

(** Text given as a Coq string. *)
Definition txt (s : string) : bytes := map (fun c => Z.of_nat (nat_of_ascii c)) (list_ascii_of_string s).

(** Expressions.  [YText] is a string written between triple quotes, [YStr]
    one between single ones.  A positional argument of a call has the empty
    name. *)
Inductive py :=
| YNone | YBool (b : bool) | YInt (n : Z) | YBytes (b : bytes) | YStr (s : bytes) | YText (s : bytes)
| YTuple (l : list py) | YList (l : list py) | YDict (l : list (py * py))
| YName (x : bytes) | YAttr (e : py) (x : bytes) | YCall (f : py) (args : list (bytes * py))
| YOr (a b : py).

