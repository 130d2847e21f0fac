(** Model of BaseNewGRF.write (grf/grf.py:727-750): the temporary file, the
    final move, the clean-up, and the returned set of watched files; with
    exceptions and a dying process at any point.  Definitions only.

    The body of _do_write (576-725) up to the point where the file is complete
    is a sequence of file writes [chunks] whose concatenation is the content;
    the patches of the header (708-714) are separate chunks that replace the
    content.  Every elementary step may be hit by a fault. *)
From Coq Require Import ZArith List Bool.
From Verif Require Import Base RefsModel SchedModel.
Import ListNotations.
Open Scope Z_scope.

(** What a step may do wrong: raise an Exception, raise a BaseException that is
    not an Exception (KeyboardInterrupt, SystemExit), or never return because
    the process is gone.  [fpart] says how much of the step's effect had
    happened. *)
Inductive fkind := FExc | FBase | FDie.
Record fault := mkFault { f_kind : fkind; f_part : nat }.
(** Faults by number of the step. *)
Definition oracle := nat -> option fault.

(** The target, the temporary file, the id map and the sprite cache on disk
    (only whether they have been saved). *)
Record fsys := mkFs { fs_target : option bytes; fs_tmp : option bytes; fs_idmap : bool; fs_cache : bool }.
Inductive outcome (A : Type) := Done (a : A) | Raised (k : fkind).
Arguments Done {A}. Arguments Raised {A}.
(** A computation: steps counted so far and the file system. *)
Definition M (A : Type) := oracle -> nat -> fsys -> outcome A * nat * fsys.
Definition ret {A} (a : A) : M A := fun o n s => (Done a, n, s).
Definition andthen {A B} (m : M A) (f : A -> M B) : M B :=
  fun o n s => match m o n s with
               | (Done a, n, s) => f a o n s
               | (Raised k, n, s) => (Raised k, n, s)
               end.
Definition prim (full : fsys -> fsys) (part : nat -> fsys -> fsys) : M unit :=
  fun o n s => match o n with
               | None => (Done tt, S n, full s)
               | Some f => (Raised (f_kind f), S n, part (f_part f) s)
               end.
Definition nothing : nat -> fsys -> fsys := fun _ s => s.
Definition set_target (v : option bytes) (s : fsys) := mkFs v (fs_tmp s) (fs_idmap s) (fs_cache s).
Definition set_tmp (v : option bytes) (s : fsys) := mkFs (fs_target s) v (fs_idmap s) (fs_cache s).

(** Work in memory (generation, resolution, encoding). *)
Definition compute : M unit := prim (fun s => s) nothing.
(** 733-734 tempfile.NamedTemporaryFile(delete=False); tmp.close() *)
Definition make_tmp : M unit := prim (set_tmp (Some [])) nothing.
(** f.write(d); any beginning of it may have been written. *)
Definition put (d : bytes) : M unit :=
  prim (fun s => set_tmp (option_map (fun c => c ++ d) (fs_tmp s)) s)
       (fun k s => set_tmp (option_map (fun c => c ++ firstn k d) (fs_tmp s)) s).
(** 708-714 seek and write back the complete header and references; [new] is
    the content after it. *)
Definition repatch (new : bytes) : M unit :=
  prim (fun s => set_tmp (option_map (fun _ => new) (fs_tmp s)) s) nothing.
Fixpoint puts (l : list bytes) : M unit :=
  match l with [] => ret tt | d :: l => andthen compute (fun _ => andthen (put d) (fun _ => puts l)) end.
(** 716 *)
Definition save_idmap : M unit := prim (fun s => mkFs (fs_target s) (fs_tmp s) true (fs_cache s)) nothing.
(** 576-725 *)
Definition do_write {R} (chunks : list bytes) (new : bytes) (r : R) : M R :=
  andthen compute (fun _ =>
  andthen (puts chunks) (fun _ =>
  andthen (repatch new) (fun _ =>
  andthen save_idmap (fun _ =>
  andthen compute (fun _ => ret r))))).
(** 737 shutil.move: os.rename, or if the temporary directory is on another
    file system, a copy (of which any beginning may have been written) and an
    unlink. *)
Definition rename : M unit :=
  prim (fun s => mkFs (fs_tmp s) None (fs_idmap s) (fs_cache s)) nothing.
Definition unlink : M unit := prim (set_tmp None) nothing.
Definition copy : M unit :=
  prim (fun s => set_target (fs_tmp s) s) (fun k s => set_target (option_map (firstn k) (fs_tmp s)) s).
Definition move (same_fs : bool) : M unit := if same_fs then rename else andthen copy (fun _ => unlink).
(** 741-742 *)
Definition save_cache : M unit := prim (fun s => mkFs (fs_target s) (fs_tmp s) (fs_idmap s) true) nothing.
(** 735-742: try / except Exception / finally.  os.unlink of a file that is not
    there raises too. *)
Definition unlink_existing : M unit :=
  fun o n s => match fs_tmp s with Some _ => unlink o n s | None => (Raised FExc, S n, s) end.
Definition handler {A} (body : M A) : M A :=
  fun o n s => match body o n s with
               | (Raised FExc, n, s) =>
                   match unlink_existing o n s with
                   | (Done _, n, s) => (Raised FExc, n, s)
                   | (Raised k, n, s) => (Raised k, n, s)
                   end
               | r => r
               end.
Definition finally {A} (body : M A) (fin : M unit) : M A :=
  fun o n s => match body o n s with
               | (Raised FDie, n, s) => (Raised FDie, n, s)
               | (r, n, s) => match fin o n s with
                              | (Done _, n, s) => (r, n, s)
                              | (Raised k, n, s) => (Raised k, n, s)
                              end
               end.
(** 727-742: [compute] is the loading of the cache. *)
Definition write {R} (same_fs : bool) (chunks : list bytes) (new : bytes) (r : R) : M R :=
  andthen compute (fun _ =>
  andthen make_tmp (fun _ =>
  finally (handler (andthen (do_write chunks new r) (fun r => andthen (move same_fs) (fun _ => ret r)))) save_cache)).

(** 744-750: the watched files.  What _do_write returns is its variable
    [sprites], which 673 assigns the resources of the resource action just
    written; an object is an action of the list or a resource. *)
Inductive wobj := WAction (a : aid) | WResource (s : aid).
Fixpoint returned (resources : aid -> list aid) (written : list aid) (sched : list entry) (cur : list wobj) : list wobj :=
  match sched with
  | [] => cur
  | e :: rest =>
      let s := en_sprite e in
      if mem s written then returned resources written rest cur
      else returned resources (s :: written) rest (map WResource (resources s))
  end.
(** [files a] is None unless [a] is a ResourceAction; a Resource is not one. *)
Definition watched (files : aid -> option (list fid)) (l : list wobj) : list fid :=
  flat_map (fun o => match o with WAction a => match files a with Some f => f | None => [] end | WResource _ => [] end) l.
Definition write_returns (files : aid -> option (list fid)) (resources : aid -> list aid) (sprites : list aid) : list fid :=
  watched files (returned resources [] (fst (enumerate_sprites files (fun _ => None) sprites)) (map WAction sprites)).
