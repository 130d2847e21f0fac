(** Model of the counters of the build report (grf/grf.py 161-166, 645-667,
    684-694, 729, 199-212).  Definitions only.

    The loop is the one of ContainerModel.v, of which only what the counters
    depend on is repeated; times and the warnings before the last line of the
    report are left out. *)
From Coq Require Import ZArith List Bool.
From Verif Require Import Base RefsModel SchedModel ContainerModel.
Import ListNotations.
Open Scope Z_scope.

(** 645-667 get_sprite_data: where the data of a resource came from. *)
Inductive origin := FromCache | Encoded | Uncacheable.
(** 161-166: the counters. *)
Record report := mk_report { num_sprites : Z; num_cached : Z; num_uncacheable : Z; num_duplicate : Z }.
Definition no_report : report := mk_report 0 0 0 0.
(** 655-666 *)
Definition count_one (r : report) (o : origin) : report :=
  mk_report (num_sprites r + 1)
            (match o with FromCache => num_cached r + 1 | _ => num_cached r end)
            (match o with Uncacheable => num_uncacheable r + 1 | _ => num_uncacheable r end)
            (num_duplicate r).
(** 672-705: [how s] tells for each resource of [s] where its data came
    from. *)
Fixpoint count_resources (hash : list bytes -> Z) (data : aid -> list bytes) (how : aid -> list origin) (sched : list aid)
  (hashes : list Z) (written : list aid) (r : report) : report :=
  match sched with
  | [] => r
  | s :: rest =>
      if mem s written then count_resources hash data how rest hashes written r
      else
        let r := fold_left count_one (how s) r in
        let h := hash (data s) in
        if existsb (Z.eqb h) hashes
        then count_resources hash data how rest hashes (s :: written)
               (mk_report (num_sprites r) (num_cached r) (num_uncacheable r) (num_duplicate r + len (data s)))
        else count_resources hash data how rest (h :: hashes) (s :: written) r
  end.
(** 724 and 576-714: the counters printed at the end of a write(). *)
Definition build_report (hash : list bytes -> Z) (files : aid -> option (list fid)) (data : aid -> list bytes) (how : aid -> list origin)
  (sprites : list aid) : report :=
  count_resources hash data how (map en_sprite (fst (enumerate_sprites files (fun _ => None) sprites))) [] [] no_report.
