(** Specification vocabulary for C30 and C31. *)
From Coq Require Import ZArith List Bool String.
From Verif Require Import Base IdMapModel.
Import ListNotations.
Open Scope Z_scope.

(** The file assigns id [i] to name [n] of feature [f]. *)
Definition says (d : jdata) (f : Z) (n : string) (i : Z) : Prop :=
  exists names, In (feature_name f, names) (j_index d) /\ In (n, i) names.

(** A usable id map file: version 1, known features, no name twice, no id twice
    within a feature. *)
Definition file_good (d : jdata) : Prop :=
  j_version d = 1 /\ NoDup (map fst (j_index d)) /\
  forall fn names, In (fn, names) (j_index d) -> In fn feature_names /\ NoDup (map fst names) /\ NoDup (map snd names).

(** The file written by "init_id_map". *)
Definition empty_file : jdata := mkJ 1 [].

(** Only existing features are used. *)
Definition known (s : step) : Prop := match s with SResolve f _ => 0 <= f <= 20 | _ => True end.
(** The steps of one run of the program. *)
Definition one_session (steps : list step) : Prop := ~ In SRestart steps.

(** In the course of the trace, name [n] of [f] got [i]; explicit id [n] of [f]
    was accepted. *)
Definition got (tr : list (step * option Z)) (f : Z) (n : string) (i : Z) : Prop := In (SResolve f (VStr n), Some i) tr.
Definition accepted (tr : list (step * option Z)) (f n : Z) : Prop := In (SResolve f (VInt n), Some n) tr.
