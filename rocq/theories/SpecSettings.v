(** What the engine does with the records of the global settings, written
    without the model. *)
From Coq Require Import ZArith List Bool.
Import ListNotations.
Open Scope Z_scope.

Definition le32 (a b c d : Z) : Z := a + 256 * b + 65536 * c + 16777216 * d.

(** Action D: 0D <target> <operation> <source 1> <source 2> [<value>].  A source
    FF is the value; operation 00 assigns source 1, 08 is the bitwise or. *)
Inductive sets : list Z -> (Z -> Z) -> (Z -> Z) -> Prop :=
| assign_value t s2 a b c d p p' :
    p' t = le32 a b c d -> (forall x, x <> t -> p' x = p x) ->
    sets [13; t; 0; 255; s2; a; b; c; d] p p'
| or_value t s1 a b c d p p' : s1 <> 255 ->
    p' t = Z.lor (p s1) (le32 a b c d) -> (forall x, x <> t -> p' x = p x) ->
    sets [13; t; 8; s1; 255; a; b; c; d] p p'.

(** A sequence of records. *)
Inductive sets_all : list (list Z) -> (Z -> Z) -> (Z -> Z) -> Prop :=
| sets_nil p p' : (forall x, p' x = p x) -> sets_all [] p p'
| sets_cons r rs p p' p'' : sets r p p' -> sets_all rs p' p'' -> sets_all (r :: rs) p p''.

(** Action 0 for the global feature (08), one property, one id, the property 11:
    "engines of [source] replace engines of [target]", each a four byte id. *)
Definition override_record (source target : list Z) : list Z :=
  [0; 8; 1; 1; 255; 0; 0; 17] ++ source ++ target.

(** The numbers the documentation of Action D gives to the bits of parameter
    9E. *)
Definition is_byte (b : Z) : Prop := 0 <= b <= 255.
