(** Properties C30 and C31: automatic ids. *)
From Coq Require Import ZArith List Bool Lia String.
From Verif Require Import Base BaseFacts RecordsModel IdMapModel SpecIdMap IdMapProofs IdMapProofs2 IdMapProofs3.
Import ListNotations.
Open Scope Z_scope.

(** C30, in one session on a usable id map file: a name always resolves, the
    same name to the same id and different names of a feature to different
    ids. *)
Theorem C30_distinct : forall d steps w tr, file_good d -> Forall known steps -> one_session steps ->
  run (mkWorld (Some d) new_map) steps = (w, tr) ->
  (forall f n r, In (SResolve f (VStr n), r) tr -> exists i, r = Some i) /\
  (forall f a b i j, got tr f a i -> got tr f b j -> (i = j <-> a = b)).
Proof.
  intros d steps w tr G K O H. split.
  - intros f n r X. destruct (history_spec d steps w tr G K H) as [_ Q]. destruct (Q f n r X) as (j & -> & _). eauto.
  - exact (proj1 (proj2 (proj2 (session_spec d steps w tr G K O H)))).
Qed.

(** An id given to a name in this session is none of the explicit ids accepted
    before or after in the session; an explicit id is refused only if it was
    given to a name in this session. *)
Theorem C30_explicit_partial : forall d steps w tr, file_good d -> Forall known steps -> one_session steps ->
  run (mkWorld (Some d) new_map) steps = (w, tr) ->
  (forall f n i, got tr f n i -> ~ says d f n i -> ~ accepted tr f i) /\
  (forall f i, In (SResolve f (VInt i), None) tr -> exists n, got tr f n i /\ ~ says d f n i).
Proof.
  intros d steps w tr G K O H. destruct (session_spec d steps w tr G K O H) as (_ & _ & _ & S3 & S4). split; [|exact S4].
  intros f n i A N. destruct (S3 f n i A); [contradiction|assumption].
Qed.

(** What is missing: for an id read from the file the check does not work
    (grf.py:813 stores the name, 850 looks for the number), so an explicit id
    that was given to a name in an earlier run is accepted. *)
Theorem C30_loaded_refuted : exists d steps w tr, file_good d /\ Forall known steps /\ one_session steps /\
  run (mkWorld (Some d) new_map) steps = (w, tr) /\
  exists f n i, got tr f n i /\ accepted tr f i.
Proof.
  exists (mkJ 1 [("train", [("a", 300)])])%string, [SResolve 0 (VStr "a"%string); SResolve 0 (VInt 300)].
  eexists. eexists. split; [|split; [|split; [|split; [vm_compute; reflexivity|]]]].
  - split; [reflexivity|]. split; [repeat constructor; auto|]. intros fn names [E|[]]. apply pair_inj in E as [<- <-].
    split; [now left|]. split; repeat constructor; auto.
  - repeat constructor; lia.
  - intros [X|[X|[]]]; discriminate.
  - exists 0, "a"%string, 300. split; [now left|right; now left].
Qed.

(** The first name of a feature gets the least number that is not reserved,
    counting from 0 for industry tiles, 37 for industries and 300 for
    everything else. *)
Theorem C30_first : forall d ids f n m r, file_good d -> 0 <= f <= 20 -> (forall n i, ~ says d f n i) ->
  resolve (Some d) (reserve ids new_map) f (VStr n) = (m, r) ->
  let least := match f with 9 => 0 | 10 => 37 | _ => 300 end in
  exists i, r = Some i /\ least <= i /\ ~ In (f, VInt i) ids /\ (forall j, least <= j < i -> In (f, VInt j) ids).
Proof.
  intros d ids f n m r G R Sy H least.
  assert (L : least = min_id f).
  { unfold least, min_id. destruct (Z.eqb_spec f 9) as [->|N9]; [reflexivity|]. destruct (Z.eqb_spec f 10) as [->|N10]; [reflexivity|].
    destruct f as [|p|p]; try reflexivity. do 5 (destruct p; try reflexivity; try lia). }
  rewrite L. destruct (first_spec d ids f n m r G R Sy H) as (i & -> & A & B). exists i. split; [reflexivity|]. split; [exact A|]. split; [|exact B].
  intro X. destruct (reserved_spec d ids [] [SResolve f (VStr n)] (mkWorld (Some d) new_map) [] (mkWorld (Some d) m) [(SReserve ids, None); (SResolve f (VStr n), Some i)] G) with (f := f) (n := n) (i := i) as [Y|[]].
  - constructor.
  - repeat constructor; lia.
  - intros [].
  - intros [Y|[]]; discriminate.
  - reflexivity.
  - cbn [run do_step w_disk w_map]. rewrite H. reflexivity.
  - right. now left.
  - exact X.
  - exact (Sy n i Y).
Qed.

(** Ids reserved during a session are not given to names that did not have them
    already. *)
Theorem C30_reserved : forall d ids s1 s2 w1 t1 w2 t2, file_good d -> Forall known s1 -> Forall known s2 -> one_session s1 -> one_session s2 ->
  run (mkWorld (Some d) new_map) s1 = (w1, t1) ->
  run w1 (SReserve ids :: s2) = (w2, t2) ->
  forall f n i, got t2 f n i -> In (f, VInt i) ids -> says d f n i \/ got t1 f n i.
Proof. exact reserved_spec. Qed.

(** C31: whatever happens in any number of sessions, with or without saving,
    every name of the file always resolves to its id, no other name gets that
    id, and the file stays usable and loses nothing. *)
Theorem C31_stable : forall d steps w tr, file_good d -> Forall known steps ->
  run (mkWorld (Some d) new_map) steps = (w, tr) ->
  (forall f n i r, says d f n i -> In (SResolve f (VStr n), r) tr -> r = Some i) /\
  (forall f n i n' j, says d f n i -> got tr f n' j -> n' <> n -> j <> i) /\
  exists d', w_disk w = Some d' /\ file_good d' /\ forall f n i, 0 <= f <= 20 -> says d f n i -> says d' f n i.
Proof.
  intros d steps w tr G K H. destruct (history_spec d steps w tr G K H) as [D Q]. split; [|split; [|exact D]].
  - intros f n i r S X. destruct (Q f n r X) as (j & -> & Q1 & _). now rewrite (Q1 i S).
  - intros f n i n' j S X Ne. destruct (Q f n' (Some j) X) as (k & E & _ & Q2). apply some_inj in E. subst k. intros Eij. apply (Q2 n i S); congruence.
Qed.
(** And what was resolved before a save keeps its id in all later sessions. *)
Theorem C31_across : forall d s1 s2 w1 t1 w2 t2, file_good d -> Forall known s1 -> Forall known s2 -> one_session s1 ->
  run (mkWorld (Some d) new_map) s1 = (w1, t1) ->
  run w1 (SSave :: SRestart :: s2) = (w2, t2) ->
  forall f n i, 0 <= f <= 20 -> got t1 f n i ->
    (forall r, In (SResolve f (VStr n), r) t2 -> r = Some i) /\
    (forall n' j, got t2 f n' j -> n' <> n -> j <> i).
Proof. exact across_spec. Qed.

(** A case: starting from the file of "init_id_map", two sessions. *)
Example C30_C31_case :
  file_good empty_file /\
  let s1 := [SReserve [(0, VInt 302)]; SResolve 0 (VInt 300); SResolve 0 (VStr "a"); SResolve 0 (VStr "b"); SResolve 9 (VStr "a");
             SResolve 10 (VStr "x"); SResolve 0 (VInt 301); SResolve 0 (VStr "a")]%string in
  let s2 := [SResolve 0 (VStr "b"); SResolve 0 (VStr "c")]%string in
  let '(w1, t1) := run (mkWorld (Some empty_file) new_map) s1 in
  let '(w2, t2) := run w1 (SSave :: SRestart :: s2) in
  map snd t1 = [None; Some 300; Some 301; Some 303; Some 0; Some 37; None; Some 301] /\
  map snd t2 = [None; None; Some 303; Some 304] /\
  w_disk w2 = Some (mkJ 1 [("train", [("a", 301); ("b", 303)]); ("industry_tile", [("a", 0)]); ("industry", [("x", 37)])])%string.
Proof.
  split; [split; [reflexivity|split; [constructor|intros ? ? []]]|]. vm_compute. auto.
Qed.

Print Assumptions C30_distinct.
Print Assumptions C30_explicit_partial.
Print Assumptions C30_loaded_refuted.
Print Assumptions C30_first.
Print Assumptions C30_reserved.
Print Assumptions C31_stable.
Print Assumptions C31_across.
