(** Properties C27 (as carried out), C28 and C29: the written file. *)
From Coq Require Import ZArith List Bool Lia Sorting.Permutation.
From Verif Require Import Base BaseFacts RecordsModel RefsModel RefsProofs SchedModel SpecSched SchedProofs SchedProofs2
  ContainerModel SpecContainer ContainerProofs ContainerTotal.
Import ListNotations.
Open Scope Z_scope.

(** C28: the file that is written can be read to its last byte, its sections
    are where the header says, and reading gives back exactly the list of
    actions: data for an ordinary action, and for a resource action a
    reference to the id [tgt s]. *)
Theorem C28_container : forall hash files pseudo data sprites b ev,
  (forall s t, In s (resources files sprites) -> In t (resources files sprites) -> hash (data s) = hash (data t) -> data s = data t) ->
  (forall s, In s sprites -> files s = None -> pseudo s <> []) ->
  do_write hash files pseudo data sprites = Some (b, ev) ->
  exists c tgt, read_file b = Some c /\ c_rest c = [] /\
    c_header c = [0; 0; 71; 82; 70; 130; 13; 10; 26; 10] /\ c_compression c = 0 /\ c_magic c = [4; 0; 0; 0; 255; 2; 0; 0; 0] /\
    c_offset c = c_real_offset c /\
    c_pseudos c = map (image (isres files) pseudo tgt) sprites /\
    (forall p, In p (c_reals c) -> exists s, In s (resources files sprites) /\ fst p = tgt s).
Proof.
  intros hash files pseudo data sprites b ev H1 H2 H.
  destruct (do_write_spec hash files pseudo data sprites H1 H2 b ev H) as (c & tgt & C1 & C2 & C3 & C4 & C5 & C6 & C7 & C8 & C9 & C10 & C11).
  exists c, tgt. split; [exact C1|]. split; [exact C6|]. split; [exact C2|]. split; [exact C3|]. split; [exact C4|]. split; [exact C5|].
  split; [exact C7|]. exact C10.
Qed.

(** Writing succeeds whenever the sizes fit in double words. *)
Theorem C28_written : forall hash files pseudo data sprites,
  (forall s, In s sprites -> files s = None -> len (pseudo s) < 4294967296) ->
  (forall s d, In s sprites -> files s <> None -> In d (data s) -> len d < 4294967296) ->
  14 + actions_size (isres files) pseudo sprites < 4294967296 ->
  exists b ev, do_write hash files pseudo data sprites = Some (b, ev).
Proof.
  intros hash files pseudo data sprites H1 H2 H3. destruct (do_write_ex hash files pseudo data sprites H1 H2 H3) as [[b ev] E]. eauto.
Qed.

(** C29: under the id each resource action refers to the file holds exactly
    the data of that action, although equal data is stored once. *)
Theorem C29_dedupe : forall hash files pseudo data sprites b ev,
  (forall s t, In s (resources files sprites) -> In t (resources files sprites) -> hash (data s) = hash (data t) -> data s = data t) ->
  (forall s, In s sprites -> files s = None -> pseudo s <> []) ->
  do_write hash files pseudo data sprites = Some (b, ev) ->
  exists c tgt, read_file b = Some c /\
    c_pseudos c = map (image (isres files) pseudo tgt) sprites /\
    (forall s, In s (resources files sprites) -> stored c (tgt s) = data s) /\
    (forall s t, In s (resources files sprites) -> In t (resources files sprites) -> data s = data t -> tgt s = tgt t).
Proof.
  intros hash files pseudo data sprites b ev H1 H2 H.
  destruct (do_write_spec hash files pseudo data sprites H1 H2 b ev H) as (c & tgt & C1 & C2 & C3 & C4 & C5 & C6 & C7 & C8 & C9 & C10 & C11).
  exists c, tgt. auto.
Qed.

(** The hypothesis on [hash] matters: only hashes are compared, so a collision
    makes an action show another action's sprite. *)
Theorem C29_collision_refuted : exists hash files pseudo data sprites b ev c,
  do_write hash files pseudo data sprites = Some (b, ev) /\ read_file b = Some c /\
  c_pseudos c = [(253, dword 1); (253, dword 1)] /\ stored c 1 = data 0%nat /\
  sprites = [0; 1]%nat /\ data 0%nat <> data 1%nat.
Proof.
  exists (fun _ => 0), (fun _ => Some []), (fun _ => []), (fun s => match s with O => [[1]] | _ => [[2]] end), [0; 1]%nat.
  eexists. eexists. eexists. split; [vm_compute; reflexivity|]. split; [vm_compute; reflexivity|]. split; [reflexivity|].
  split; [reflexivity|]. split; [reflexivity|discriminate].
Qed.

(** C27 as carried out: nothing is loaded twice, no resource is encoded while
    one of its files is not loaded, nothing is loaded at the end, and each
    resource action is encoded once. *)
Lemma replay_app : forall files a b open, replay files open (a ++ b) = match replay files open a with Some o => replay files o b | None => None end.
Proof.
  intros files. induction a as [|e a IH]; intros b open; [reflexivity|]. destruct e as [f|s|f]; cbn [app replay].
  - destruct (mem f open); [reflexivity|apply IH].
  - destruct (forallb _ _); [apply IH|reflexivity].
  - destruct (mem f open); [apply IH|reflexivity].
Qed.
Lemma replay_load : forall files l open, replay files open (map ELoad l) = load_all open l.
Proof. intros files. induction l as [|f l IH]; intro open; [reflexivity|]. cbn. destruct (mem f open); [reflexivity|apply IH]. Qed.
Lemma replay_unload : forall files l open, replay files open (map EUnload l) = unload_all open l.
Proof. intros files. induction l as [|f l IH]; intro open; [reflexivity|]. cbn. destruct (mem f open); [apply IH|reflexivity]. Qed.
Lemma replay_sched : forall files sched open, replay files open (flat_map entry_events sched) = carry_out files open sched.
Proof.
  intros files. induction sched as [|e l IH]; intro open; [reflexivity|]. cbn [flat_map carry_out]. unfold entry_events at 1.
  rewrite <- app_assoc, replay_app, replay_load. destruct (load_all open (en_load e)) as [o|]; [|reflexivity].
  cbn [app replay]. destruct (forallb _ _); [|reflexivity]. rewrite replay_app, replay_unload.
  destruct (unload_all o (en_unload e)); [apply IH|reflexivity].
Qed.
Lemma encoded_app : forall a b, encoded (a ++ b) = encoded a ++ encoded b.
Proof. induction a as [|e a IH]; intro b; [reflexivity|]. destruct e; cbn; now rewrite IH. Qed.
Lemma encoded_sched : forall sched, encoded (flat_map entry_events sched) = map en_sprite sched.
Proof.
  assert (L : forall l, encoded (map ELoad l) = []) by (induction l; auto).
  assert (U : forall l, encoded (map EUnload l) = []) by (induction l; auto).
  induction sched as [|e l IH]; [reflexivity|]. cbn [flat_map map]. unfold entry_events at 1. rewrite !encoded_app, L. cbn [encoded app].
  now rewrite U, IH.
Qed.
Theorem C27_carried_out : forall hash files pseudo data sprites b ev, NoDup (resources files sprites) ->
  (forall s t, In s (resources files sprites) -> In t (resources files sprites) -> hash (data s) = hash (data t) -> data s = data t) ->
  (forall s, In s sprites -> files s = None -> pseudo s <> []) ->
  do_write hash files pseudo data sprites = Some (b, ev) ->
  replay files [] ev = Some [] /\ Permutation (encoded ev) (resources files sprites).
Proof.
  intros hash files pseudo data sprites b ev N H1 H2 H.
  destruct (do_write_spec hash files pseudo data sprites H1 H2 b ev H) as (c & tgt & C1 & C2 & C3 & C4 & C5 & C6 & C7 & C8 & C9 & C10 & C11).
  rewrite (C11 N), replay_sched, encoded_sched. split.
  - now apply schedule_spec.
  - pose proof (ids_spec files (fun _ => None) sprites N) as X. destruct (enumerate_sprites files (fun _ => None) sprites). apply X.
Qed.

(** If a resource action is listed twice the schedule breaks: with actions 0
    and 1 sharing a file and 0 listed again at the end, the file is unloaded
    before 1 is encoded. *)
Theorem C27_listed_twice_refuted : exists hash files pseudo data sprites b ev,
  do_write hash files pseudo data sprites = Some (b, ev) /\ sprites = [0; 1; 0]%nat /\
  (forall s, files s = Some [7%nat]) /\ ev = [ELoad 7; EEncode 0; EUnload 7; EEncode 1; ELoad 7]%nat /\
  replay files [] ev = None.
Proof.
  exists (fun d => match d with [[x]] => x | _ => 0 end), (fun _ => Some [7%nat]), (fun _ => []), (fun s => [[Z.of_nat s]]), [0; 1; 0]%nat.
  eexists. eexists. split; [vm_compute; reflexivity|]. split; [reflexivity|]. split; [reflexivity|]. split; reflexivity.
Qed.

(** Every listed resource action has an id of its own even when some are
    listed several times. *)
Theorem C26_distinct : forall files ids0 sprites sched ids, enumerate_sprites files ids0 sprites = (sched, ids) ->
  (forall s, In s (map en_sprite sched) <-> In s (resources files sprites)) /\
  (forall s, In s (resources files sprites) -> exists v, ids s = Some v /\ 0 < v <= Z.of_nat (length (resources files sprites))) /\
  (forall s t, In s (resources files sprites) -> In t (resources files sprites) -> ids s = ids t -> s = t).
Proof. exact enumerate_any. Qed.

(** A case: two ordinary actions and three resource actions, 1 and 4 with equal
    data, 2 with two alternatives. *)
Definition exc_files (s : aid) : option (list fid) :=
  match s with 1 => Some [5] | 2 => Some [] | 4 => Some [6; 5] | _ => None end%nat.
Definition exc_data (s : aid) : list bytes :=
  match s with 1%nat | 4%nat => [[10; 11]] | 2%nat => [[20]; [21; 22]] | _ => [] end.
Definition exc_hash (d : list bytes) : Z := match d with (x :: _) :: _ => x | _ => 0 end.
Definition exc_pseudo (s : aid) : bytes := match s with O => [8; 7] | _ => [12] end.
Example C28_case :
  (forall s t, In s (resources exc_files [0; 1; 2; 3; 4]%nat) -> In t (resources exc_files [0; 1; 2; 3; 4]%nat) ->
     exc_hash (exc_data s) = exc_hash (exc_data t) -> exc_data s = exc_data t) /\
  (forall s, In s [0; 1; 2; 3; 4]%nat -> exc_files s = None -> exc_pseudo s <> []) /\
  NoDup (resources exc_files [0; 1; 2; 3; 4]%nat) /\
  exists b, do_write exc_hash exc_files exc_pseudo exc_data [0; 1; 2; 3; 4]%nat =
    Some (b, [EEncode 2; ELoad 5; EEncode 1; ELoad 6; EEncode 4; EUnload 5; EUnload 6]%nat) /\
  option_map (fun c => (c_offset c, c_pseudos c, c_reals c)) (read_file b) =
    Some (54, [(255, [8; 7]); (253, [2; 0; 0; 0]); (253, [1; 0; 0; 0]); (255, [12]); (253, [2; 0; 0; 0])],
          [(1, [20]); (1, [21; 22]); (2, [10; 11])]).
Proof.
  split; [|split; [|split; [|eexists; split; vm_compute; reflexivity]]].
  - cbn [resources filter exc_files]. intros s t S T. cbn in S, T.
    destruct S as [<-|[<-|[<-|[]]]]; destruct T as [<-|[<-|[<-|[]]]]; vm_compute; try reflexivity; discriminate.
  - intros s S _. cbn in S. destruct S as [<-|[<-|[<-|[<-|[<-|[]]]]]]; discriminate.
  - repeat constructor; cbn; intuition discriminate.
Qed.

Print Assumptions C28_container.
Print Assumptions C28_written.
Print Assumptions C29_dedupe.
Print Assumptions C29_collision_refuted.
Print Assumptions C27_carried_out.
Print Assumptions C27_listed_twice_refuted.
Print Assumptions C26_distinct.
