(** Model of the sizes printed by the build report (grf/common.py 316-321,
    grf/grf.py 723).  Definitions only.

    [num] is a size of less than 2 ^ 53 bytes: then num / 1024.0 and the
    quotients after it are exact, and the value is the fraction num / scale. *)
From Coq Require Import ZArith List Bool String.
From Verif Require Import Base DecodeModel TreeModel.
Import ListNotations.
Open Scope Z_scope.

(** a / b rounded to the nearest integer, to the even one of two, as format()
    rounds the exact value of a float. *)
Definition round_half_even (a b : Z) : Z :=
  let q := a / b in let r := a mod b in
  if 2 * r <? b then q else if b <? 2 * r then q + 1 else if Z.even q then q else q + 1.
(** f'{num:.2f}' of the value num / scale >= 0: hundredths with a point (46)
    before the last two digits. *)
Definition fmt_2f (num scale : Z) : bytes :=
  let h := round_half_even (100 * num) scale in
  str_nat (h / 100) ++ [46; 48 + h / 10 mod 10; 48 + h mod 10].
(** 317-321 the loop over the units and the unit after it. *)
Fixpoint size_loop (units : list string) (num scale : Z) : bytes :=
  match units with
  | [] => fmt_2f num scale ++ 32 :: bs "GiB"
  | u :: us =>
      if num <? 1024 * scale then fmt_2f num scale ++ 32 :: bs u
      else size_loop us num (1024 * scale)
  end.
(** 316-321 byte_size_format *)
Definition byte_size_format (num : Z) : bytes := size_loop ["B"; "KiB"; "MiB"]%string num 1.
