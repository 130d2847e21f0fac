(** Independent specification vocabulary for C01-C04: the Gregorian calendar. *)
From Coq Require Import ZArith Bool.
From Verif Require Import CommonModel.
Open Scope Z_scope.

(** A year is a leap year if divisible by 4, except centuries not divisible by 400. *)
Definition leap (y : Z) : Prop := (4 | y) /\ (~ (100 | y) \/ (400 | y)).

Inductive month_length (y : Z) : Z -> Z -> Prop :=
| ml31 m : (m = 1 \/ m = 3 \/ m = 5 \/ m = 7 \/ m = 8 \/ m = 10 \/ m = 12) -> month_length y m 31
| ml30 m : (m = 4 \/ m = 6 \/ m = 9 \/ m = 11) -> month_length y m 30
| ml29 : leap y -> month_length y 2 29
| ml28 : ~ leap y -> month_length y 2 28.

Definition valid_date (d : date) : Prop :=
  0 <= d_year d /\ 1 <= d_month d <= 12 /\
  exists n, month_length (d_year d) (d_month d) n /\ 1 <= d_day d <= n.

(** [follows a b]: [b] is the calendar day after [a]. *)
Inductive follows : date -> date -> Prop :=
| f_day y m e n : month_length y m n -> e < n -> follows (mkDate y m e) (mkDate y m (e + 1))
| f_month y m n : month_length y m n -> m < 12 -> follows (mkDate y m n) (mkDate y (m + 1) 1)
| f_year y : follows (mkDate y 12 31) (mkDate (y + 1) 1 1).

Definition date_lt (a b : date) : Prop :=
  d_year a < d_year b \/ d_year a = d_year b /\
    (d_month a < d_month b \/ d_month a = d_month b /\ d_day a < d_day b).
