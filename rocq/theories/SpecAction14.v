(** Specification vocabulary for C19: the decoded tree a property tree stands
    for, and which trees are well formed. *)
From Coq Require Import ZArith List Bool.
From Verif Require Import Base RecordsModel Action14Model.
Import ListNotations.
Open Scope Z_scope.

(** A tag: four bytes, or a number written little-endian in four bytes. *)
Definition tag_of (k : pkey) : bytes :=
  match k with KRaw b => b | KInt n => le_bytes 4 n end.
Definition key_ok (k : pkey) : Prop :=
  match k with KRaw b => length b = 4%nat | KInt n => 0 <= n < 2 ^ 32 end.

Definition text_ok (lang : Z) (t : bytes) : Prop := 0 <= lang < 256 /\ ~ In 0 t.

(** The items a leaf value stands for: a plain str is a text in language 0,
    an int four little-endian bytes, a list the items of its elements. *)
Inductive leaf_items : pval -> list ditem -> Prop :=
| li_text lang t : text_ok lang t -> leaf_items (PText lang t) [IText lang t]
| li_str t : ~ In 0 t -> leaf_items (PStr t) [IText 0 t]
| li_int n : 0 <= n < 2 ^ 32 -> leaf_items (PInt n) [IBin (le_bytes 4 n)]
| li_bin b : (length b < Z.to_nat 65536)%nat -> leaf_items (PBytes b) [IBin b]
| li_pairs ps : Forall (fun p => text_ok (fst p) (snd p)) ps ->
    leaf_items (PPairs ps) (map (fun p => IText (fst p) (snd p)) ps)
| li_nil : leaf_items (PList []) []
| li_cons x xs i is : leaf_items x i -> leaf_items (PList xs) is ->
    leaf_items (PList (x :: xs)) (i ++ is).

(** [tree l d]: the property dictionary [l] stands for the decoded dictionary
    [d]: same order, same tags, no tag twice, every value either a nested
    dictionary or a non-empty leaf. *)
Inductive tree : list (pkey * pval) -> ddict -> Prop :=
| tr_nil : tree [] []
| tr_dict k sub r dsub dr : key_ok k -> tree sub dsub -> tree r dr ->
    ~ In (tag_of k) (map fst dr) -> tree ((k, PDict sub) :: r) ((tag_of k, DDict dsub) :: dr)
| tr_leaf k v r i is dr : key_ok k -> leaf_items v (i :: is) -> tree r dr ->
    ~ In (tag_of k) (map fst dr) -> tree ((k, v) :: r) ((tag_of k, DList (i :: is)) :: dr).
