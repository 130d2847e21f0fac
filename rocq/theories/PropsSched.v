(** Properties C26 and C27: numbering of real sprites and the file schedule. *)
From Coq Require Import ZArith List Bool Lia Sorting.Permutation Sorting.Sorted.
From Verif Require Import Base BaseFacts RecordsModel RefsModel SchedModel SpecSched SchedProofs.
Import ListNotations.
Open Scope Z_scope.

(** C26: every resource action is scheduled once, and in schedule order the
    ids are 1, 2, ..., n; so each has an id and no two share one. *)
Theorem C26_ids : forall files ids0 sprites sched ids, NoDup (resources files sprites) ->
  enumerate_sprites files ids0 sprites = (sched, ids) ->
  Permutation (map en_sprite sched) (resources files sprites) /\
  map ids (map en_sprite sched) = map Some (numbers (length sched)).
Proof.
  intros files ids0 sprites sched ids N E. pose proof (ids_spec files ids0 sprites N) as H. rewrite E in H. exact H.
Qed.

(** The order: first the resources without loaded files as listed, then the
    others by the number of their files, equal numbers as listed. *)
Theorem C26_order : forall files ids0 sprites, NoDup (resources files sprites) ->
  let order := map en_sprite (fst (enumerate_sprites files ids0 sprites)) in
  let nfiles := fun s => Z.of_nat (length (need files s)) in
  exists l, order = filter (fun s => match files s with Some [] => true | _ => false end) sprites ++ l /\
    Sorted (fun a b => nfiles a <= nfiles b) l /\
    forall k, filter (fun a => nfiles a =? k) l =
              filter (fun a => nfiles a =? k) (filter (fun s => match files s with Some (_ :: _) => true | _ => false end) sprites).
Proof.
  intros files ids0 sprites N order nfiles. exists (lorder files sprites). split; [exact (order_spec files ids0 sprites N)|].
  split; [apply (sort_sorted files)|]. intro k. apply (sort_stable files nfiles).
Qed.

(** C27: carrying out the schedule from nothing loaded never fails (no double
    load, no unload of what is not loaded, every needed file loaded when its
    sprite is encoded) and ends with nothing loaded; no file is loaded twice,
    and a file is loaded and unloaded only by sprites that need it, so between
    its first and its last use. *)
Theorem C27_schedule : forall files ids0 sprites, NoDup (resources files sprites) ->
  let sched := fst (enumerate_sprites files ids0 sprites) in
  carry_out files [] sched = Some [] /\
  NoDup (flat_map en_load sched) /\
  (forall e, In e sched -> incl (en_load e) (need files (en_sprite e)) /\ incl (en_unload e) (need files (en_sprite e))).
Proof. exact schedule_spec. Qed.

(** A case: 0 needs two files, 1 none, 2 shares a file with 0, 3 is no
    resource, 4 uses one file twice. *)
Definition ex_files (s : aid) : option (list fid) :=
  match s with
  | 0 => Some [7; 8] | 1 => Some [] | 2 => Some [8] | 3 => None | 4 => Some [9; 9] | _ => None
  end%nat.
Example C27_case : NoDup (resources ex_files [0; 1; 2; 3; 4]%nat) /\
  fst (enumerate_sprites ex_files (fun _ => None) [0; 1; 2; 3; 4]%nat) =
  [mkEntry 1 [] []; mkEntry 2 [8] []; mkEntry 0 [7] [8; 7]; mkEntry 4 [9] [9]]%nat.
Proof. split; [repeat constructor; cbn; intuition discriminate|]. vm_compute. reflexivity. Qed.

(** Without the hypothesis: an action listed twice takes two numbers and keeps
    the second, so the ids are not 1..n. *)
Theorem C26_listed_twice_refuted : exists files sprites sched ids,
  enumerate_sprites files (fun _ => None) sprites = (sched, ids) /\ (forall s, In s sprites -> files s <> None) /\
  forall s, In s sprites -> ids s <> Some 1.
Proof.
  exists (fun _ => Some []), [0; 0]%nat. destruct (enumerate_sprites _ _ _) as [sched ids] eqn:E.
  exists sched, ids. split; [reflexivity|]. split; [discriminate|].
  assert (H : ids 0%nat = Some 2).
  { change ids with (snd (sched, ids)). rewrite <- E. vm_compute. reflexivity. }
  intros s [<-|[<-|[]]]; rewrite H; discriminate.
Qed.

Print Assumptions C26_ids.
Print Assumptions C26_order.
Print Assumptions C27_schedule.
Print Assumptions C26_listed_twice_refuted.
