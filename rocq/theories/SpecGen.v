(** Specification vocabulary for C34 and C53. *)
From Coq Require Import ZArith List Bool.
From Verif Require Import Base GenModel.
Import ListNotations.
Open Scope Z_scope.

(** The sounds in an item, and the actions it stands for. *)
Fixpoint item_sounds (i : item) : list sid :=
  match i with ISound s => [s] | IGen l => flat_map item_sounds l | _ => [] end.
Fixpoint item_outs (i : item) : list out :=
  match i with
  | IAction a => [OAction a] | IResource r | ISingle r => [OResource r]
  | ISingleSound _ | ISound _ => [] | IGen l => flat_map item_outs l
  end.
(** No SingleResourceAction is passed in. *)
Fixpoint item_plain (i : item) : bool :=
  match i with ISingle _ | ISingleSound _ => false | IGen l => forallb item_plain l | _ => true end.

(** Everything a program passes to the object. *)
Definition op_sounds (o : gop) : list sid :=
  match o with GAdd l => flat_map item_sounds l | GWrite refs => refs end.
(** Different sounds passed: the number of fingerprints. *)
Definition distinct (fp : sid -> nat) (l : list sid) : nat := length (nodup Nat.eq_dec (map fp l)).
(** What has been added by a program, in order. *)
Definition added (ops : list gop) : list item := flat_map (fun o => match o with GAdd l => l | GWrite _ => [] end) ops.
