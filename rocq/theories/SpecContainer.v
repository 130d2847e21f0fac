(** Specification vocabulary for C28 and C29. *)
From Coq Require Import ZArith List Bool.
From Verif Require Import Base RefsModel SchedModel ContainerModel.
Import ListNotations.
Open Scope Z_scope.

(** A little-endian double word. *)
Definition dword (v : Z) : bytes := [v mod 256; v / 256 mod 256; v / 65536 mod 256; v / 16777216 mod 256].

(** The data the file holds under an id. *)
Definition stored (c : contents) (id : Z) : list bytes :=
  map snd (filter (fun r => fst r =? id) (c_reals c)).

(** What an action looks like in the file: its own data, or a reference to the
    id [target s]. *)
Definition image (res : aid -> bool) (pseudo : aid -> bytes) (target : aid -> Z) (s : aid) : Z * bytes :=
  if res s then (253, dword (target s)) else (255, pseudo s).

(** What carrying out a schedule does to the files. *)
Definition entry_events (e : entry) : list event :=
  map ELoad (en_load e) ++ EEncode (en_sprite e) :: map EUnload (en_unload e).

(** Bytes the list of actions takes in the file: a length, a type and the data
    of each. *)
Fixpoint actions_size (res : aid -> bool) (pseudo : aid -> bytes) (sprites : list aid) : Z :=
  match sprites with
  | [] => 0
  | s :: rest => 5 + (if res s then 4 else len (pseudo s)) + actions_size res pseudo rest
  end.
(** Is the object a resource action? *)
Definition isres (files : aid -> option (list fid)) (s : aid) : bool := match files s with Some _ => true | None => false end.

(** Watching the files while the resources are written: loading what is loaded,
    unloading what is not, or encoding a resource one of whose files is not
    loaded is a failure ([None]); the result is what is loaded at the end. *)
Fixpoint replay (files : aid -> option (list fid)) (open : list fid) (ev : list event) : option (list fid) :=
  match ev with
  | [] => Some open
  | ELoad f :: rest => if mem f open then None else replay files (f :: open) rest
  | EUnload f :: rest =>
      if mem f open then replay files (filter (fun x => negb (Nat.eqb f x)) open) rest else None
  | EEncode s :: rest =>
      if forallb (fun f => mem f open) (need files s) then replay files open rest else None
  end.
(** The resources encoded, in order. *)
Fixpoint encoded (ev : list event) : list aid :=
  match ev with [] => [] | EEncode s :: rest => s :: encoded rest | _ :: rest => encoded rest end.
