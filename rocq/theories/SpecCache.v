(** Specification vocabulary for C32 and C33. *)
From Coq Require Import ZArith List Bool Arith.
From Verif Require Import Base CacheModel.
Import ListNotations.

(** The bytes most recently stored under the key by completed operations. *)
Fixpoint last_stored (ops : list cop) (results : list (option bytes)) (k : key) (acc : option bytes) : option bytes :=
  match ops, results with
  | OSet x v :: ops, _ :: rs => last_stored ops rs k (if Nat.eqb x k then Some v else acc)
  | OData x _ :: ops, r :: rs => last_stored ops rs k (if Nat.eqb x k then r else acc)
  | _ :: ops, _ :: rs => last_stored ops rs k acc
  | _, _ => acc
  end.

(** Operations of a process that does not die. *)
Definition no_death (o : cop) : Prop :=
  match o with OLoad _ | OGet _ | OSet _ _ | OData _ _ | OSave => True | _ => False end.

(** Is the key listed in index.json? *)
Definition listed (d : disk) (k : key) : Prop := match d_index d with Some l => In k l | None => False end.

(** No process ever died while storing a key that index.json lists. *)
Fixpoint safe_deaths (w : cworld) (ops : list cop) : Prop :=
  match ops with
  | [] => True
  | o :: rest =>
      match o with OSetDie k _ => ~ listed (fst w) k | _ => True end /\ safe_deaths (fst (cstep w o)) rest
  end.

(** The operations of one process between loading and saving. *)
Definition in_session (o : cop) : Prop := match o with OGet _ | OSet _ _ | OData _ _ => True | _ => False end.
(** The session stored the key, or asked for it. *)
Definition stores (o : cop) (k : key) : Prop := match o with OSet x _ => x = k | OData x _ => x = k | _ => False end.
Definition asks (o : cop) (k : key) : Prop := match o with OGet x => x = k | _ => False end.
