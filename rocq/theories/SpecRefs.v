(** Specification vocabulary for reference resolution (C24, C25). *)
From Coq Require Import ZArith List Bool.
From Verif Require Import Base RecordsModel RefsModel.
Import ListNotations.
Open Scope Z_scope.

(** Action [a] refers to action object [r]. *)
Definition uses (g : aid -> node) (a r : aid) : Prop :=
  n_referencing (g a) = true /\ In (GAct r) (n_refs (g a)) /\ n_referenceable (g r) = true.

(** The actions the user's list leads to. *)
Inductive needed (g : aid -> node) (listed : list aid) : aid -> Prop :=
| need_listed a : In a listed -> needed g listed a
| need_used a r : needed g listed a -> uses g a r -> needed g listed r.

Definition is_action (g : aid -> node) (a : aid) : bool := n_referencing (g a) || n_referenceable (g a).

(** Everything that is referenced is referenced inline: it is not listed
    itself, carries no id of its own, and is not referred to by number. *)
Record inline_refs (g : aid -> node) (listed : list aid) : Prop := {
  ir_nodup : NoDup (filter (is_action g) listed);
  ir_unlisted : forall a r, needed g listed a -> uses g a r -> ~ In r listed;
  ir_noid : forall a, needed g listed a -> n_ref_id (g a) = None;
  ir_nonum : forall a v, needed g listed a -> In (GRef v) (n_refs (g a)) -> Z.testbit v 15 = true }.

(** No chain of references comes back to its start. *)
Definition acyclic (g : aid -> node) : Prop := exists rank : aid -> nat, forall a r, uses g a r -> (rank r < rank a)%nat.

(** In the written order [l], at the first action [a] after the prefix [pre],
    a reference to the number [n] means the last action before it that carries
    that number: that action is [r]. *)
Definition last_with_id (ids : aid -> option Z) (pre : list aid) (n : Z) (r : aid) : Prop :=
  exists x y, pre = x ++ r :: y /\ ids r = Some n /\ (forall b, In b y -> ids b <> Some n).

(** [l] is a subsequence of [m]: same elements in the same order, others between. *)
Inductive subseq {A} : list A -> list A -> Prop :=
| sub_nil : subseq [] []
| sub_skip x l m : subseq l m -> subseq l (x :: m)
| sub_keep x l m : subseq l m -> subseq (x :: l) (x :: m).

(** The features agree: each listed action has one, everything it leads to has
    the same one or none yet. *)
Record features_agree (g : aid -> node) (listed : list aid) (ft : aid -> Z) : Prop := {
  fa_listed : forall a, In a listed -> is_action g a = true -> n_feature (g a) = Some (ft a);
  fa_set : forall a f, needed g listed a -> n_feature (g a) = Some f -> f = ft a;
  fa_uses : forall a r, needed g listed a -> uses g a r -> ft r = ft a }.
