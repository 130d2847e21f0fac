(** Specification vocabulary for C26 and C27. *)
From Coq Require Import ZArith List Bool Sorting.Permutation.
From Verif Require Import Base RefsModel SchedModel.
Import ListNotations.
Open Scope Z_scope.

(** The resource actions of the list. *)
Definition resources (files : aid -> option (list fid)) (sprites : list aid) : list aid :=
  filter (fun s => match files s with Some _ => true | None => false end) sprites.

(** Carrying out a schedule: a file may not be loaded while it is loaded nor
    unloaded while it is not, and when a sprite is encoded every file it needs
    is loaded.  The result is what stays loaded. *)
Fixpoint load_all (open : list fid) (l : list fid) : option (list fid) :=
  match l with
  | [] => Some open
  | f :: l => if mem f open then None else load_all (f :: open) l
  end.
Fixpoint unload_all (open : list fid) (l : list fid) : option (list fid) :=
  match l with
  | [] => Some open
  | f :: l => if mem f open then unload_all (filter (fun x => negb (Nat.eqb f x)) open) l else None
  end.
Fixpoint carry_out (files : aid -> option (list fid)) (open : list fid) (sched : list entry) : option (list fid) :=
  match sched with
  | [] => Some open
  | e :: rest =>
      match load_all open (en_load e) with
      | None => None
      | Some open =>
          if forallb (fun f => mem f open) (need files (en_sprite e)) then
            match unload_all open (en_unload e) with None => None | Some open => carry_out files open rest end
          else None
      end
  end.

(** 1, 2, ..., n *)
Definition numbers (n : nat) : list Z := map Z.of_nat (seq 1 n).
