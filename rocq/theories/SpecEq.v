(** What it means that [==] on actions is right: an equivalence, and equal
    actions write the same record, up to the order of the entries of a
    dictionary.  Independent of the comparison methods. *)
From Coq Require Import ZArith List Bool Permutation.
From Verif Require Import Base Action14Model.
Import ListNotations.
Open Scope Z_scope.

(** A comparison that is reflexive, symmetric and transitive on the objects
    that can exist ([ok]: no dictionary has a key twice). *)
Definition equivalence {A} (ok : A -> Prop) (eq : A -> A -> bool) : Prop :=
  (forall a, ok a -> eq a a = true)
  /\ (forall a b, ok a -> ok b -> eq a b = eq b a)
  /\ (forall a b c, ok a -> ok b -> ok c -> eq a b = true -> eq b c = true -> eq a c = true).

Definition unique {K V} (l : list (K * V)) : Prop := NoDup (map fst l).

(** The same keys with related values, in any order. *)
Definition same_entries {K V W} (R : V -> W -> Prop) (a : list (K * V)) (b : list (K * W)) : Prop :=
  exists b', Permutation b b' /\ Forall2 (fun p q => fst p = fst q /\ R (snd p) (snd q)) a b'.

(** Two records with the same beginning and the same end, and between them
    the same blocks, perhaps in another order. *)
Definition same_blocks (x y : bytes) : Prop :=
  exists head blocks blocks' tail,
    x = head ++ concat blocks ++ tail /\ y = head ++ concat blocks' ++ tail /\ Permutation blocks blocks'.

(** A property tree and the same one with the entries of its dictionaries in
    another order, at any depth. *)
Inductive reordered : pval -> pval -> Prop :=
| RO_dict (l m m' : list (pkey * pval)) :
    Forall2 (fun p q => fst p = fst q /\ reordered (snd p) (snd q)) l m' -> Permutation m m' ->
    reordered (PDict l) (PDict m)
| RO_list (l m : list pval) : Forall2 reordered l m -> reordered (PList l) (PList m)
| RO_text (lang : Z) (t : bytes) : reordered (PText lang t) (PText lang t)
| RO_str (t : bytes) : reordered (PStr t) (PStr t)
| RO_int (n : Z) : reordered (PInt n) (PInt n)
| RO_bytes (b : bytes) : reordered (PBytes b) (PBytes b)
| RO_pairs (l : list (Z * bytes)) : reordered (PPairs l) (PPairs l).

(** No dictionary of the tree has a key twice. *)
Inductive tree_ok : pval -> Prop :=
| TO_dict (l : list (pkey * pval)) : unique l -> Forall (fun p => tree_ok (snd p)) l -> tree_ok (PDict l)
| TO_list (l : list pval) : Forall tree_ok l -> tree_ok (PList l)
| TO_text (lang : Z) (t : bytes) : tree_ok (PText lang t)
| TO_str (t : bytes) : tree_ok (PStr t)
| TO_int (n : Z) : tree_ok (PInt n)
| TO_bytes (b : bytes) : tree_ok (PBytes b)
| TO_pairs (l : list (Z * bytes)) : tree_ok (PPairs l).
