(** Specification vocabulary for printing a grf as a Python program (C70). *)
From Coq Require Import ZArith List Bool.
From Verif Require Import Base RefsModel SpecRefs GenPyModel.
Import ListNotations.
Open Scope Z_scope.

(** Everything referenced as an object is listed earlier under an id of its
    own; what is still referenced by number does not exist; features agree. *)
Record numbered_refs (g : aid -> node) (n : nat) (ft : aid -> Z) : Prop := {
  nr_earlier : forall a r, (a < n)%nat -> uses g a r -> (r < a)%nat;
  nr_ids : forall a, (a < n)%nat -> n_referenceable (g a) = true -> n_ref_id (g a) <> None;
  nr_dangling : forall a v j, (a < n)%nat -> n_referencing (g a) = true -> In (GRef v) (n_refs (g a)) ->
    Z.land v 32768 = 0 -> (j < a)%nat -> n_referenceable (g j) = true -> n_ref_id (g j) <> Some (Z.land v 32767);
  nr_feature : forall a, (a < n)%nat -> is_action g a = true -> n_feature (g a) = Some (ft a);
  nr_same : forall a r, (a < n)%nat -> uses g a r -> ft r = ft a }.

(** ** The grf as a list of actions; object i is the i-th action *)

(** Action j of the list carries the number v. *)
Definition carries (l : list (action pref)) (j : nat) (v : Z) : Prop :=
  exists a, nth_error l j = Some a /\ pa_referenceable a = true /\ pa_ref_id a = Some v.

(** In a grf a reference to v from action i means the last earlier action
    carrying v. *)
Definition nearest_before (l : list (action pref)) (i : nat) (v : Z) (j : nat) : Prop :=
  (j < i)%nat /\ carries l j v /\ forall k, (j < k < i)%nat -> ~ carries l k v.

(** What the reference r of action i becomes. *)
Inductive rebuilt_ref (l : list (action pref)) (i : nat) : pref -> pref -> Prop :=
| rr_int n : rebuilt_ref l i (PInt n) (PInt n)
| rr_callback v : Z.testbit v 15 = true -> rebuilt_ref l i (PRef v) (PRef v)
| rr_object v j : Z.testbit v 15 = false -> nearest_before l i v j -> rebuilt_ref l i (PRef v) (PAct j)
| rr_nothing v : Z.testbit v 15 = false -> (forall j, (j < i)%nat -> ~ carries l j v) -> rebuilt_ref l i (PRef v) (PRef v).

(** y is x read as a signed 32-bit number. *)
Definition signed32 (x y : Z) : Prop := - 2 ^ 31 <= y < 2 ^ 31 /\ exists k, y = x + k * 2 ^ 32.

(** The same arguments, up to the references. *)
Inductive same_hold (R : pref -> pref -> Prop) : holder pref -> holder pref -> Prop :=
| sh_switch rs d rs' d' :
    Forall2 (fun r r' => signed32 (fst (fst r)) (fst (fst r')) /\ signed32 (snd (fst r)) (snd (fst r')) /\ R (snd r) (snd r')) rs rs' ->
    R d d' -> same_hold R (HSwitch [] rs d) (HSwitch [] rs' d')
| sh_random gs gs' : Forall2 R gs gs' -> same_hold R (HRandom gs) (HRandom gs')
| sh_map m d m' d' : Forall2 (fun e e' => fst e = fst e' /\ R (snd e) (snd e')) m m' -> R d d' ->
    same_hold R (HMap m d) (HMap m' d')
| sh_none : same_hold R HNone HNone.

(** What the decompiler makes: numbers of 16 bits for references, ids exactly
    on the actions that can be referenced, ranges of unsigned 32-bit numbers,
    no subroutines.  [distinct]: no range or cargo is listed twice. *)
Definition decoded_ref (r : pref) : Prop := match r with PAct _ => False | PRef v => 0 <= v < 65536 | PInt _ => True end.
Definition word32 (v : Z) : Prop := 0 <= v < 2 ^ 32.
Definition distinct (h : holder pref) : Prop :=
  match h with
  | HSwitch _ rs _ => NoDup (map fst rs)
  | HMap m _ => NoDup (map fst m)
  | _ => True
  end.
Record decoded (a : action pref) : Prop := {
  de_refs : Forall decoded_ref (get_refs (pa_hold a));
  de_id : if pa_referenceable a then exists v, pa_ref_id a = Some v /\ 0 <= v else pa_ref_id a = None;
  de_ranges : match pa_hold a with
              | HSwitch subs rs _ => subs = [] /\ Forall (fun r => word32 (fst (fst r)) /\ word32 (snd (fst r))) rs
              | _ => True
              end }.

(** The rebuilt action. *)
Definition same_action (R : pref -> pref -> Prop) (a a' : action pref) : Prop :=
  pa_referenceable a' = pa_referenceable a /\ pa_feature a' = pa_feature a /\ pa_ref_id a' = pa_ref_id a /\
  pa_rest a' = pa_rest a /\ same_hold R (pa_hold a) (pa_hold a').

(** Every action that refers or is referred to has a feature, the same one as
    the actions it refers to. *)
Definition features_match (l : list (action pref)) (ft : nat -> Z) : Prop :=
  forall i a, nth_error l i = Some a ->
    (referencing (pa_hold a) || pa_referenceable a = true -> pa_feature a = Some (ft i)) /\
    (forall v j, In (PRef v) (get_refs (pa_hold a)) -> Z.testbit v 15 = false -> nearest_before l i v j -> ft j = ft i).
