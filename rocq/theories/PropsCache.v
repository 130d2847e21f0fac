(** Properties C32 and C33: the sprite cache. *)
From Coq Require Import ZArith List Bool Arith Lia.
From Verif Require Import Base BaseFacts CacheModel SpecCache CacheProofs.
Import ListNotations.
Open Scope nat_scope.

(** C32: in any number of sessions that end normally, get answers the bytes
    last stored for the key, or nothing. *)
Theorem C32_get : forall ops p1 k p2 w rs b, Forall no_death ops ->
  crun (empty_disk, new_cache) ops = (w, rs) -> ops = p1 ++ OGet k :: p2 ->
  nth (length p1) rs None = Some b -> last_stored p1 (firstn (length p1) rs) k None = Some b.
Proof.
  intros ops p1 k p2 w rs b Hd H E R. destruct (run_fok ops (fun _ => None) _ w rs (empty_fok _) (no_death_safe _ _ Hd) H) as [_ A].
  destruct (A p1 (OGet k) p2 E k b) as [A1 _]. now apply A1.
Qed.

(** If the sprites of a key are always encoded to the same bytes, a build with
    a cache gets these bytes. *)
Theorem C32_transparent : forall real ops p1 k p2 w rs, Forall no_death ops ->
  (forall x v, In (OSet x v) ops \/ In (OData x v) ops -> v = real x) ->
  crun (empty_disk, new_cache) ops = (w, rs) -> ops = p1 ++ OData k (real k) :: p2 ->
  nth (length p1) rs None = Some (real k).
Proof.
  intros real ops p1 k p2 w rs Hd Hr H E.
  assert (Q : forall n p1 k p2, length p1 = n -> ops = p1 ++ OData k (real k) :: p2 -> nth (length p1) rs None = Some (real k)).
  { induction n as [n IH] using lt_wf_ind. intros q1 x q2 L Eq.
    destruct (run_fok ops (fun _ => None) _ w rs (empty_fok _) (no_death_safe _ _ Hd) H) as [_ A].
    destruct (A q1 (OData x (real x)) q2 Eq x []) as [_ A2]. destruct (A2 (real x) eq_refl) as [A3|A3]; [exact A3|].
    rewrite A3.
    assert (LL : forall p rs' acc, (forall v, In (OSet x v) p -> v = real x) ->
       (forall i p' v p'', p = p' ++ OData x v :: p'' -> length p' = i -> nth i rs' None = Some (real x)) -> length rs' = length p ->
       acc = None \/ acc = Some (real x) -> last_stored p rs' x acc = None \/ last_stored p rs' x acc = Some (real x)).
    { clear. induction p as [|o p IHp]; intros rs' acc H1 H2 L Ha; [destruct rs'; exact Ha|]. destruct rs' as [|r rs']; [discriminate|].
      rewrite last_stored_cons. apply IHp.
      - intros v V. apply H1. now right.
      - intros i p' v p'' Ep Li. subst p. specialize (H2 (S i) (o :: p') v p'' eq_refl). cbn in H2. apply H2. now rewrite Li.
      - cbn in L. lia.
      - destruct o as [c|y|y v|y v| | |y v|g|]; cbn [upd1]; try exact Ha.
        + destruct (Nat.eqb y x) eqn:Y; [|exact Ha]. apply Nat.eqb_eq in Y. subst y. right. f_equal. apply H1. now left.
        + destruct (Nat.eqb y x) eqn:Y; [|exact Ha]. apply Nat.eqb_eq in Y. subst y. right. exact (H2 0%nat [] v p eq_refl eq_refl). }
    assert (LN : forall ops w w' rs, crun w ops = (w', rs) -> length rs = length ops).
    { clear. induction ops as [|o ops IH]; intros w w' rs E; cbn [crun] in E; [apply pair_inj in E as [_ <-]; reflexivity|].
      destruct (cstep w o) as [w1 r]. destruct (crun w1 ops) as [w2 rs2] eqn:R. apply pair_inj in E as [_ <-]. cbn. f_equal. now apply (IH w1 w2). }
    pose proof (LN _ _ _ _ H) as Lr.
    destruct (LL q1 (firstn (length q1) rs) None) as [Z|Z].
    - intros v V. apply Hr. left. rewrite Eq. apply in_or_app. now left.
    - intros i p' v p'' Ep Li. assert (Lt : (length p' < n)%nat) by (rewrite <- L, Ep, app_length; cbn; lia).
      assert (Ev : v = real x). { apply Hr. right. rewrite Eq, Ep, <- app_assoc. apply in_or_app. right. now left. }
      subst v. rewrite <- (IH (length p') Lt p' x (p'' ++ OData x (real x) :: q2) eq_refl); [|rewrite Eq, Ep, <- app_assoc; reflexivity].
      rewrite <- Li. rewrite <- (firstn_skipn (length q1) rs) at 2. rewrite app_nth1; [reflexivity|]. rewrite firstn_length, Lr, Eq, app_length. cbn. lia.
    - rewrite firstn_length, Lr, Eq, app_length. cbn. lia.
    - now left.
    - exfalso. rewrite Z in A3. clear - H A3 Eq LN.
      assert (D : forall ops w w' rs, crun w ops = (w', rs) -> forall p k v q, ops = p ++ OData k v :: q -> nth (length p) rs None <> None).
      { clear. induction ops as [|o ops IH]; intros w w' rs E p k v q Eq; [destruct p; discriminate|]. cbn [crun] in E.
        destruct (cstep w o) as [w1 r] eqn:C. destruct (crun w1 ops) as [w2 rs2] eqn:R. apply pair_inj in E as [_ <-].
        destruct p as [|x p]; cbn in Eq; injection Eq as Eo Eq.
        - subst o. destruct w as [d c]. cbn [cstep] in C. destruct (cached_data d c k v) as [[d1 c1] r1]. apply pair_inj in C as [_ <-]. discriminate.
        - cbn [length nth]. now apply (IH w1 w2 rs2 R p k v q). }
      now apply (D ops _ w rs H q1 x (real x) q2 Eq).
    - exact Z. }
  now apply (Q (length p1) p1 k p2).
Qed.

(** After save, index.json lists exactly the keys the session used: stored, or
    found in the index it started from; files of the keys it did not use are
    gone; nothing else changes. *)
Theorem C32_after_save : forall d clean ops d' c' rs, Forall in_session ops ->
  crun (d, cache_load d clean) (ops ++ [OSave]) = ((d', c'), rs) ->
  let used k := (exists o, In o ops /\ stores o k) \/ (clean = false /\ listed d k /\ exists o, In o ops /\ asks o k) in
  (forall k, listed d' k <-> used k) /\
  (forall k, listed d k -> ~ used k -> d_files d' k = None) /\
  (forall k, ~ listed d k -> ~ used k -> d_files d' k = d_files d k).
Proof. exact saved_spec. Qed.

(** What a session stored, the next session gets. *)
Theorem C32_hit : forall d clean ops w' rs k, Forall in_session ops ->
  crun (d, cache_load d clean) (ops ++ [OSave; ODie; OLoad false; OGet k]) = (w', rs) ->
  (exists o, In o ops /\ stores o k) -> nth (length ops + 3) rs None = last_stored ops rs k None.
Proof. exact hit_spec. Qed.

(** C33: processes may die at any point (between operations, in the middle of
    storing a file, in the middle of saving), except while storing a key that
    index.json lists; then get still answers only bytes stored in full. *)
Theorem C33_crash_partial : forall ops p1 k p2 w rs b, safe_deaths (empty_disk, new_cache) ops ->
  crun (empty_disk, new_cache) ops = (w, rs) -> ops = p1 ++ OGet k :: p2 ->
  nth (length p1) rs None = Some b -> last_stored p1 (firstn (length p1) rs) k None = Some b.
Proof.
  intros ops p1 k p2 w rs b Hd H E R. destruct (run_fok ops (fun _ => None) _ w rs (empty_fok _) Hd H) as [_ A].
  destruct (A p1 (OGet k) p2 E k b) as [A1 _]. now apply A1.
Qed.

(** The exception is real: a clean build stores keys that index.json lists, and
    if it dies while doing so the next build uses half a sprite. *)
Theorem C33_clean_build_refuted : exists k whole part w rs,
  crun (empty_disk, new_cache)
    [OLoad false; OData k whole; OSave; ODie;
     OLoad true; OGet k; OSetDie k part;
     OLoad false; OData k whole] = (w, rs) /\
  part <> whole /\ nth 8 rs None = Some part.
Proof.
  exists 0%nat, [1; 2]%Z, [1]%Z. eexists. eexists. split; [vm_compute; reflexivity|]. split; [discriminate|reflexivity].
Qed.
(** Without clean builds it takes two deaths: one in save between deleting a
    file and writing index.json, one while storing that key again. *)
Theorem C33_two_deaths_refuted : exists k whole part w rs,
  crun (empty_disk, new_cache)
    [OLoad false; OData k whole; OSave; ODie;
     OLoad false; OSaveDie [k];
     OLoad false; OGet k; OSetDie k part;
     OLoad false; OData k whole] = (w, rs) /\
  part <> whole /\ nth 7 rs None = None /\ nth 10 rs None = Some part.
Proof.
  exists 0%nat, [1; 2]%Z, [1]%Z. eexists. eexists. split; [vm_compute; reflexivity|]. split; [discriminate|]. split; reflexivity.
Qed.

(** Cases meeting the hypotheses: two sessions, and a history with deaths. *)
Example C32_case :
  let ops := [OLoad false; OData 1 [5]%Z; OData 2 [6; 7]%Z; OSave; ODie; OLoad false; OData 2 [6; 7]%Z; OGet 3; OSave; OLoad false; OGet 1; OGet 2] in
  Forall no_death (firstn 4 ops) /\
  snd (crun (empty_disk, new_cache) ops) =
    [None; Some [5]%Z; Some [6; 7]%Z; None; None; None; Some [6; 7]%Z; None; None; None; None; Some [6; 7]%Z].
Proof. split; [repeat constructor|vm_compute; reflexivity]. Qed.
Example C33_case :
  let ops := [OLoad false; OData 1 [5]%Z; OSetDie 2 [6]%Z; OLoad false; OGet 1; OGet 2; OData 2 [6; 7]%Z; OSave; ODie; OLoad false; OSaveDieIndex; OLoad false; OGet 2] in
  safe_deaths (empty_disk, new_cache) ops /\
  snd (crun (empty_disk, new_cache) ops) =
    [None; Some [5]%Z; None; None; None; None; Some [6; 7]%Z; None; None; None; None; None; None].
Proof. split; [cbn; tauto|vm_compute; reflexivity]. Qed.

Print Assumptions C32_get.
Print Assumptions C32_transparent.
Print Assumptions C32_after_save.
Print Assumptions C32_hit.
Print Assumptions C33_crash_partial.
Print Assumptions C33_clean_build_refuted.
Print Assumptions C33_two_deaths_refuted.
