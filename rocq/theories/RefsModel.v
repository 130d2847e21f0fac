(** Model of BaseNewGRF.resolve_refs (grf/grf.py:336-470): ordering the
    actions that are referenced inline and giving them ids.  Definitions only.

    Python objects are natural numbers; [g] gives the immutable part of each
    object.  Fuel is the interpreter's recursion limit: running out of it is
    [None], like any other exception.  heapq is modelled by taking the least
    element of a list.  Not modelled: messages, and the registration of sounds
    found among the references (345-348), which is in SoundModel. *)
From Coq Require Import ZArith List Bool.
From Verif Require Import Base RecordsModel.
Import ListNotations.
Open Scope Z_scope.

Definition aid := nat.
(** A reference: an action object, a Ref(value) / CB(value), or anything else
    (an int, a sound). *)
Inductive gref := GAct (a : aid) | GRef (value : Z) | GOther.
(** isinstance ReferencingAction / ReferenceableAction, get_refs(), the ref_id
    and feature attributes before resolution. *)
Record node := mkNode {
  n_referencing : bool; n_referenceable : bool; n_refs : list gref; n_ref_id : option Z; n_feature : option Z }.

Definition upd {A} (f : aid -> A) (k : aid) (v : A) : aid -> A := fun x => if Nat.eqb x k then v else f x.
Definition mem (x : aid) (l : list aid) : bool := existsb (Nat.eqb x) l.

(** 337-341 *)
Record rstate := mkRS {
  r_actions : list (aid * option nat); r_oref : aid -> list aid; r_uref : aid -> list aid; r_cnt : aid -> nat }.
Definition rs0 : rstate := mkRS [] (fun _ => []) (fun _ => []) (fun _ => O).
Definition keys {V} (l : list (aid * V)) : list aid := map fst l.
Definition inc_cnt (st : rstate) (r : aid) : rstate :=
  mkRS (r_actions st) (r_oref st) (r_uref st) (upd (r_cnt st) r (S (r_cnt st r))).
Definition set_action (st : rstate) (s : aid) (i : option nat) : rstate :=
  mkRS (dict_set Nat.eqb (r_actions st) s i) (r_oref st) (r_uref st) (r_cnt st).
Definition add_uref (st : rstate) (s r : aid) : rstate :=
  mkRS (r_actions st) (r_oref st) (upd (r_uref st) s (r_uref st s ++ [r])) (r_cnt st).
(** 370-371 *)
Definition add_oref (st : rstate) (s r : aid) : rstate :=
  if mem r (r_oref st s) then st
  else mkRS (r_actions st) (upd (r_oref st) s (r_oref st s ++ [r])) (r_uref st) (r_cnt st).

(** 343-376 resolve(s, i); [refids] is the table of listed explicit ids. *)
Section Resolve.
  Variable g : aid -> node.
  Variable refids : list (Z * aid).
  Variable rec : aid -> rstate -> option rstate.
  Fixpoint resolve_loop (s : aid) (l : list gref) (st : rstate) : option rstate :=
    match l with
    | [] => Some st
    | r :: l =>
        do st <-
          match r with
          | GRef v =>
              if negb (Z.land v 32768 =? 0) then Some st
              else match dict_get Z.eqb refids (Z.land v 32767) with
                   | None => Some st
                   | Some r => Some (inc_cnt st r)
                   end
          | GOther => Some st
          | GAct r =>
              if negb (n_referenceable (g r)) then Some st
              else if Nat.eqb r s then None
              else
                let st := inc_cnt st r in
                if negb (mem r (keys (r_actions st)))
                then rec r (add_uref (set_action st r None) s r)
                else Some (add_oref st s r)
          end;
        resolve_loop s l st
    end.
End Resolve.
Fixpoint resolve (fuel : nat) (g : aid -> node) (refids : list (Z * aid)) (s : aid) (i : option nat) (st : rstate) : option rstate :=
  match fuel with
  | O => None
  | S fuel =>
      do st <- (if n_referencing (g s)
                then resolve_loop g refids (fun r st => resolve fuel g refids r None st) s (n_refs (g s)) st
                else Some st);
      match dict_get Nat.eqb (r_actions st) s, i with
      | Some (Some p), Some i' => if negb (Nat.eqb p i') then None else Some (set_action st s i)
      | _, _ => Some (set_action st s i)
      end
  end.

(** 378-388: the loop over the listed sprites. *)
Fixpoint resolve_all (fuel : nat) (g : aid -> node) (i : nat) (sprites : list aid) (refids : list (Z * aid)) (st : rstate) : option rstate :=
  match sprites with
  | [] => Some st
  | s :: rest =>
      if negb (n_referencing (g s) || n_referenceable (g s)) then resolve_all fuel g (S i) rest refids st
      else
        do st <- resolve fuel g refids s (Some i) st;
        let refids := if n_referenceable (g s)
                      then match n_ref_id (g s) with Some v => dict_set Z.eqb refids v s | None => refids end
                      else refids in
        resolve_all fuel g (S i) rest refids st
  end.

(** 390-394 and the mutable attributes of the actions. *)
Record dstate := mkDS {
  d_feature : aid -> option Z; d_id : aid -> option Z; d_ids : list Z; d_reserved : list Z;
  d_linked : aid -> list aid; d_visited : list aid; d_cnt : aid -> nat }.
Definition ids0 : list Z := map (fun n => Z.of_nat n - 255) (seq 0 255).

(** heapq.heappop on the list as a set. *)
Fixpoint min_of (m : Z) (l : list Z) : Z := match l with [] => m | x :: l => min_of (Z.min m x) l end.
Fixpoint remove1 (m : Z) (l : list Z) : list Z := match l with [] => [] | x :: l => if x =? m then l else x :: remove1 m l end.
Definition pop_min (l : list Z) : option (Z * list Z) :=
  match l with [] => None | x :: r => let m := min_of x r in Some (m, remove1 m l) end.
Definition memZ (x : Z) (l : list Z) : bool := existsb (Z.eqb x) l.
(** 407-412: pop until the id is not reserved. *)
Fixpoint pop_free (n : nat) (ids reserved : list Z) : option (Z * list Z) :=
  match n with
  | O => None
  | S n => match pop_min ids with
           | None => None
           | Some (m, ids) => if memZ (- m) reserved then pop_free n ids reserved else Some (- m, ids)
           end
  end.

(** 429-441: releasing the references of a finished action. *)
Fixpoint release (g : aid -> node) (l : list gref) (st : dstate) : option dstate :=
  match l with
  | [] => Some st
  | GAct r :: l =>
      if negb (n_referenceable (g r)) then release g l st
      else
        match d_cnt st r with
        | O => None
        | S c =>
            do st <-
              match c with
              | O =>
                  do v <- d_id st r;
                  Some (mkDS (d_feature st) (d_id st) (if memZ (- v) (d_ids st) then d_ids st else - v :: d_ids st)
                             (filter (fun x => negb (x =? v)) (d_reserved st)) (d_linked st) (d_visited st) (upd (d_cnt st) r c))
              | _ => Some (mkDS (d_feature st) (d_id st) (d_ids st) (d_reserved st) (d_linked st) (d_visited st) (upd (d_cnt st) r c))
              end;
            release g l st
        end
  | _ :: l => release g l st
  end.

Definition feature_clash (a : option Z) (f : Z) : bool := match a with Some x => negb (x =? f) | None => false end.

(** for x in l: step(x) *)
Fixpoint fold_opt {S A} (step : A -> S -> option S) (l : list A) (st : S) : option S :=
  match l with [] => Some st | x :: l => do st <- step x st; fold_opt step l st end.

(** 396-441 dfs(aid, linked, feature); [linked] names the listed action whose
    list is being extended. *)
Fixpoint dfs (fuel : nat) (g : aid -> node) (rs : rstate) (a : aid) (linked : option aid) (f : Z) (st : dstate) : option dstate :=
  match fuel with
  | O => None
  | S fuel =>
      do ai <- dict_get Nat.eqb (r_actions rs) a;
      if feature_clash (d_feature st a) f then None
      else if mem a (d_visited st) then Some st
      else
        do (idv, ids, reserved) <-
          (if n_referenceable (g a) then
             match d_id st a with
             | None => do (v, ids) <- pop_free (S (length (d_ids st))) (d_ids st) (d_reserved st); Some (Some v, ids, d_reserved st)
             | Some v => Some (Some v, d_ids st, v :: d_reserved st)
             end
           else Some (d_id st a, d_ids st, d_reserved st));
        let st := mkDS (upd (d_feature st) a (Some f)) (upd (d_id st) a idv) ids reserved (d_linked st) (a :: d_visited st) (d_cnt st) in
        let linked' := match ai with Some _ => Some a | None => linked end in
        let st := match ai with
                  | Some _ => mkDS (d_feature st) (d_id st) (d_ids st) (d_reserved st) (upd (d_linked st) a []) (d_visited st) (d_cnt st)
                  | None => st end in
        do st <- fold_opt (fun x st => dfs fuel g rs x linked' f st) (r_oref rs a) st;
        do st <- fold_opt (fun x st => dfs fuel g rs x linked' f st) (r_uref rs a) st;
        do o <- linked';
        let st := mkDS (d_feature st) (d_id st) (d_ids st) (d_reserved st) (upd (d_linked st) o (d_linked st o ++ [a])) (d_visited st) (d_cnt st) in
        if n_referencing (g a) then release g (n_refs (g a)) st else Some st
  end.

(** 443-470 *)
Definition roots (rs : rstate) : list aid := filter (fun a => Nat.eqb (r_cnt rs a) 0) (keys (r_actions rs)).
Definition ds0 (g : aid -> node) (rs : rstate) : dstate :=
  mkDS (fun a => n_feature (g a)) (fun a => n_ref_id (g a)) ids0 [] (fun _ => []) [] (r_cnt rs).
Definition run_roots (fuel : nat) (g : aid -> node) (rs : rstate) : option dstate :=
  fold_opt (fun r st => do f <- n_feature (g r); dfs fuel g rs r None f st) (roots rs) (ds0 g rs).
Record resolved := mkRes { out : list aid; out_id : aid -> option Z; out_feature : aid -> option Z }.
Definition resolve_refs (fuel : nat) (g : aid -> node) (sprites : list aid) : option resolved :=
  do rs <- resolve_all fuel g 0 sprites [] rs0;
  do st <- run_roots fuel g rs;
  Some (mkRes (flat_map (fun s => if n_referencing (g s) then d_linked st s else [s]) sprites) (d_id st) (d_feature st)).
