(** Model of grf/common.py (dates, small helpers) and of the simple value
    classes of grf/actions.py.  Definitions only. *)
From Coq Require Import ZArith List Bool.
From Verif Require Import Base.
Import ListNotations.
Open Scope Z_scope.

(** Python list indexing l[i] with negative wrap-around; None = IndexError. *)
Definition py_index {A} (l : list A) (i : Z) : option A :=
  if i <? 0 then
    if i + len l <? 0 then None else nth_error l (Z.to_nat (i + len l))
  else nth_error l (Z.to_nat i).

Definition zsum (l : list Z) : Z := fold_left Z.add l 0.

(** grf/common.py:100-101 utoi8. *)
Definition utoi8 (v : Z) : Z := Z.lor v (- Z.land v 128).
(** grf/common.py:104-105 utoi32. *)
Definition utoi32 (v : Z) : Z := Z.lor v (- Z.land v 2147483648).

(** grf/common.py:237 DAYS_FOR_MONTH, 238 ACCUM_DAYS_FOR_MONTH. *)
Definition DAYS_FOR_MONTH : list Z := [31; 29; 31; 30; 31; 30; 31; 31; 30; 31; 30; 31].
Definition ACCUM_DAYS_FOR_MONTH : list Z :=
  map (fun i => zsum (firstn i DAYS_FOR_MONTH)) (seq 0 (length DAYS_FOR_MONTH)).

(** grf/common.py:241-242 is_leap_year (the second definition, which is the
    one in force; 108-109 is shadowed). *)
Definition is_leap_year (year : Z) : bool :=
  (year mod 4 =? 0) && (negb (year mod 100 =? 0) || (year mod 400 =? 0)).

(** grf/common.py:245-251 days_till. *)
Definition days_till (year : Z) : Z :=
  let res := 365 * year in
  if 0 <? year then
    let y := year - 1 in
    res + (y / 4 - y / 100 + y / 400 + 1)
  else res.

(** grf/common.py:259-263 Date. *)
Record date := mkDate { d_year : Z; d_month : Z; d_day : Z }.

(** grf/common.py:265-270 Date.to_days. *)
Definition to_days (d : date) : option Z :=
  do acc <- py_index ACCUM_DAYS_FOR_MONTH (d_month d - 1);
  let days := acc + d_day d - 1 in
  do acc2 <- py_index ACCUM_DAYS_FOR_MONTH 2;
  let days := if negb (is_leap_year (d_year d)) && (acc2 <=? days) then days - 1 else days in
  Some (days_till (d_year d) + days).

(** Values a date property can hold: grf/actions.py:212-215.
    [datetime.date] is modelled by a calendar date of years 1..9999. *)
Inductive date_value :=
| DVDatetime (d : date)   (* datetime.date *)
| DVDate (d : date)       (* grf.Date *)
| DVInt (n : Z).          (* int *)

(** Standard library: proleptic Gregorian ordinal of a datetime.date
    (CPython Lib/datetime.py _ymd2ord; 1 Jan of year 1 is 1). *)
Definition datetime_ordinal (d : date) : Z :=
  let y := d_year d - 1 in
  let before_year := y * 365 + y / 4 - y / 100 + y / 400 in
  let m := d_month d in
  let before_month :=
    zsum (firstn (Z.to_nat (m - 1)) [31; 28; 31; 30; 31; 30; 31; 31; 30; 31; 30; 31])
    + (if (2 <? m) && is_leap_year (d_year d) then 1 else 0) in
  before_year + before_month + d_day d.

(** grf/common.py:112-113 date_to_days: (d - datetime.date(1,1,1)).days + 366. *)
Definition date_to_days (d : date) : Z :=
  datetime_ordinal d - datetime_ordinal (mkDate 1 1 1) + 366.

(** Standard library: datetime.date + timedelta(days=1). *)
Definition datetime_next (d : date) : date :=
  let m := d_month d in
  let mlen :=
    if m =? 2 then (if is_leap_year (d_year d) then 29 else 28)
    else if (m =? 4) || (m =? 6) || (m =? 9) || (m =? 11) then 30 else 31 in
  if d_day d <? mlen then mkDate (d_year d) m (d_day d + 1)
  else if m <? 12 then mkDate (d_year d) (m + 1) 1
  else mkDate (d_year d + 1) 1 1.

(** grf/common.py:115-118 days_to_date; adding timedelta(days=n) is n single
    day steps. *)
Definition days_to_date (days : Z) : date_value :=
  if (days <? 366) || (3652424 <? days) then DVInt days
  else DVDatetime (Z.iter (days - 366) datetime_next (mkDate 1 1 1)).

(** grf/actions.py:217-219 DateProperty.read. *)
Definition dateprop_read (d : bytes) : option (date_value * bytes) :=
  do (v, d) <- rd_I d; Some (days_to_date v, d).

(** grf/actions.py:221-226 DateProperty.encode. *)
Definition dateprop_encode (v : date_value) : option bytes :=
  match v with
  | DVDatetime d => pack_I (date_to_days d)
  | DVDate d => do n <- to_days d; pack_I n
  | DVInt n => pack_I n
  end.

(** grf/actions.py:156-165 SpriteRef.__init__. *)
Record sprite_ref := mkSR {
  sr_id : Z; sr_pal : Z; sr_is_global : bool; sr_use_recolour : bool;
  sr_always_transparent : bool; sr_no_transparent : bool }.

(** bool(x & mask) *)
Definition flag (x mask : Z) : bool := negb (Z.land x mask =? 0).

(** grf/actions.py:167-179 SpriteRef.from_grf (classmethod). *)
Definition sr_from_grf (global_if_flagged : bool) (data : Z) : sprite_ref :=
  let pal := Z.shiftr data 16 in
  let sprite := Z.land data 65535 in
  mkSR (Z.land sprite 16383) (Z.land pal 16383)
       (Bool.eqb (flag pal 32768) global_if_flagged)
       (flag sprite 32768) (flag sprite 16384) (flag pal 16384).

(** grf/actions.py:181-185 SpriteRef.to_grf. *)
Definition sr_to_grf (global_if_flagged : bool) (r : sprite_ref) : Z :=
  Z.lor
    (Z.lor (Z.lor (sr_id r) (Z.shiftl (Z.b2z (sr_always_transparent r)) 14))
           (Z.shiftl (Z.b2z (sr_use_recolour r)) 15))
    (Z.shiftl
       (Z.lor (Z.lor (sr_pal r) (Z.shiftl (Z.b2z (sr_no_transparent r)) 14))
              (Z.shiftl (Z.b2z (Bool.eqb (sr_is_global r) global_if_flagged)) 15))
       16).
