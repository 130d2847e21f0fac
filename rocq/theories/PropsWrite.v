(** Properties C44 and C54: failing builds and watched files. *)
From Coq Require Import ZArith List Bool Lia Arith Sorting.Permutation.
From Verif Require Import Base BaseFacts RefsModel RefsProofs SchedModel SpecSched SchedProofs SchedProofs2 ContainerTotal WriteModel.
Import ListNotations.
Open Scope Z_scope.

(** ** What the steps before the move do *)
Definition quiet {A} (m : M A) : Prop := forall o n s, fs_target (snd (m o n s)) = fs_target s /\ (n <= snd (fst (m o n s)))%nat.
Lemma quiet_ret : forall A (a : A), quiet (ret a).
Proof. intros A a o n s. split; [reflexivity|cbn; lia]. Qed.
Lemma quiet_andthen : forall A B (m : M A) (f : A -> M B), quiet m -> (forall a, quiet (f a)) -> quiet (andthen m f).
Proof.
  intros A B m f Q1 Q2 o n s. unfold andthen. destruct (Q1 o n s) as [T N]. destruct (m o n s) as [[r n1] s1]. cbn in T, N.
  destruct r as [a|k]; [|auto]. destruct (Q2 a o n1 s1) as [T2 N2]. split; [congruence|]. eapply Nat.le_trans; eauto.
Qed.
Lemma quiet_prim : forall full part, (forall s, fs_target (full s) = fs_target s) -> (forall k s, fs_target (part k s) = fs_target s) -> quiet (prim full part).
Proof. intros full part F P o n s. unfold prim. destruct (o n); cbn; split; try lia; auto. Qed.
Lemma quiet_compute : quiet compute. Proof. apply quiet_prim; reflexivity. Qed.
Lemma quiet_puts : forall l, quiet (puts l).
Proof.
  induction l as [|d l IH]; [apply quiet_ret|]. apply quiet_andthen; [apply quiet_compute|]. intros _. apply quiet_andthen; [|auto].
  apply quiet_prim; reflexivity.
Qed.
Lemma quiet_do_write : forall R c new (r : R), quiet (do_write c new r).
Proof.
  intros. apply quiet_andthen; [apply quiet_compute|intros _]. apply quiet_andthen; [apply quiet_puts|intros _].
  apply quiet_andthen; [apply quiet_prim; reflexivity|intros _]. apply quiet_andthen; [apply quiet_prim; reflexivity|intros _].
  apply quiet_andthen; [apply quiet_compute|intros _]. apply quiet_ret.
Qed.

(** The number of steps before the move: 2 for the cache and the temporary
    file, the file's own steps, and 5 around them. *)
Definition steps_before_move (chunks : list bytes) : nat := 6 + 2 * length chunks.

Lemma puts_clean : forall l o n s, (forall k, (n <= k < n + 2 * length l)%nat -> o k = None) ->
  puts l o n s = (Done tt, (n + 2 * length l)%nat, set_tmp (option_map (fun c => c ++ concat l) (fs_tmp s)) s).
Proof.
  induction l as [|d l IH]; intros o n s H.
  - cbn. rewrite Nat.add_0_r. destruct s as [t [c|] i c']; cbn; rewrite ?app_nil_r; reflexivity.
  - cbn [puts]. unfold andthen at 1, compute, prim at 1. rewrite (H n) by (cbn; lia). unfold andthen, put, prim. rewrite (H (S n)) by (cbn; lia).
    rewrite IH by (intros k K; apply H; cbn [length]; lia). cbn [length concat].
    f_equal; [f_equal; lia|]. destruct s as [t [c|] i c']; cbn; [|reflexivity]. unfold set_tmp. cbn. now rewrite app_assoc.
Qed.
Lemma do_write_clean : forall R chunks new (r : R) o n s, (forall k, (n <= k < n + 4 + 2 * length chunks)%nat -> o k = None) ->
  do_write chunks new r o n s = (Done r, (n + 4 + 2 * length chunks)%nat,
    mkFs (fs_target s) (option_map (fun _ => new) (fs_tmp s)) true (fs_cache s)).
Proof.
  intros R chunks new r o n s H. unfold do_write. unfold andthen at 1, compute at 1, prim at 1. rewrite (H n) by lia.
  unfold andthen at 1. rewrite puts_clean by (intros k K; apply H; lia). cbn [fs_tmp set_tmp].
  unfold andthen at 1, repatch, prim at 1. rewrite (H (S n + 2 * length chunks)%nat) by lia.
  unfold andthen at 1, save_idmap, prim at 1. rewrite (H (S (S n + 2 * length chunks))) by lia.
  unfold andthen, compute, prim. rewrite (H (S (S (S n + 2 * length chunks)))) by lia. unfold ret.
  f_equal; [f_equal; lia|]. destruct s as [t [c|] i c']; reflexivity.
Qed.

(** C44, nothing goes wrong: the target has the new content, and no temporary
    file is left. *)
Theorem C44_success : forall R same_fs chunks new (r : R) o s, (forall n, o n = None) ->
  fst (fst (write same_fs chunks new r o 0%nat s)) = Done r /\
  snd (write same_fs chunks new r o 0%nat s) = mkFs (Some new) None true true.
Proof.
  intros R same_fs chunks new r o s H. destruct (write same_fs chunks new r o 0%nat s) as [[res n'] s'] eqn:W. cbn [fst snd].
  unfold write in W. unfold andthen at 1, compute at 1, prim at 1 in W. rewrite (H 0%nat) in W.
  unfold andthen at 1, make_tmp, prim at 1 in W. rewrite (H 1%nat) in W. unfold finally, handler in W. unfold andthen at 1 in W.
  rewrite do_write_clean in W by (intros; apply H). destruct same_fs; cbn [move] in W.
  - unfold andthen, rename, prim, save_cache, ret in W. rewrite !H in W. unfold prim in W. rewrite !H in W. injection W as <- <- <-. split; reflexivity.
  - unfold andthen, copy, unlink, prim, save_cache, ret in W. rewrite !H in W. unfold prim in W. rewrite !H in W. injection W as <- <- <-. split; reflexivity.
Qed.

(** C44, a fault of any kind (exception, interrupt, death of the process) in
    any step before the move: the target is as it was. *)
Theorem C44_target : forall R same_fs chunks new (r : R) o s,
  (exists n, (n < steps_before_move chunks)%nat /\ o n <> None) ->
  fs_target (snd (write same_fs chunks new r o 0%nat s)) = fs_target s /\
  exists k, fst (fst (write same_fs chunks new r o 0%nat s)) = Raised k.
Proof.
  intros R same_fs chunks new r o s (n & Hn & F). unfold steps_before_move in Hn.
  destruct (write same_fs chunks new r o 0%nat s) as [[res0 n0] s0] eqn:W. cbn [fst snd]. unfold write in W.
  unfold andthen at 1, compute at 1, prim at 1 in W. destruct (o 0%nat) eqn:E0; [injection W as <- <- <-; split; [reflexivity|eexists; reflexivity]|].
  unfold andthen at 1, make_tmp, prim at 1 in W. destruct (o 1%nat) eqn:E1; [injection W as <- <- <-; split; [reflexivity|eexists; reflexivity]|].
  unfold finally, handler in W. unfold andthen at 1 in W.
  set (s1 := set_tmp (Some []) s) in W.
  destruct (do_write chunks new r o 2%nat s1) as [[res n1] s2] eqn:D.
  pose proof (quiet_do_write R chunks new r o 2%nat s1) as [QT QN]. rewrite D in QT, QN. cbn in QT, QN.
  assert (exists k, res = Raised k) as [k ->].
  { destruct res as [a|k]; [|eauto]. exfalso.
    (* a run that returns has met no fault *)
    assert (clean : forall k, (2 <= k < 2 + 4 + 2 * length chunks)%nat -> o k = None).
    { unfold do_write in D. unfold andthen at 1, compute at 1, prim at 1 in D. destruct (o 2%nat) eqn:E2; [discriminate|].
      unfold andthen at 1 in D.
      assert (PC : forall l m t x m' t', puts l o m t = (Done x, m', t') -> m' = (m + 2 * length l)%nat /\ forall k, (m <= k < m + 2 * length l)%nat -> o k = None).
      { clear. induction l as [|d l IH]; intros m t x m' t' H.
        - cbn in H. injection H as <- <- <-. cbn. split; [lia|]. intros k K. lia.
        - cbn [puts] in H. unfold andthen at 1, compute, prim at 1 in H. destruct (o m) eqn:Em; [discriminate|]. unfold andthen, put, prim in H.
          destruct (o (S m)) eqn:Em2; [discriminate|]. apply IH in H as [-> H]. cbn [length]. split; [lia|]. intros k K.
          destruct (Nat.eq_dec k m) as [->|]; [exact Em|]. destruct (Nat.eq_dec k (S m)) as [->|]; [exact Em2|]. apply H. lia. }
      destruct (puts chunks o 3%nat s1) as [[[u|u] m'] t'] eqn:P; [|discriminate]. apply PC in P as [-> P].
      unfold andthen at 1, repatch, prim at 1 in D. destruct (o (3 + 2 * length chunks)%nat) eqn:E3; [discriminate|].
      unfold andthen at 1, save_idmap, prim at 1 in D. destruct (o (S (3 + 2 * length chunks))) eqn:E4; [discriminate|].
      unfold andthen, compute, prim in D. destruct (o (S (S (3 + 2 * length chunks)))) eqn:E5; [discriminate|].
      intros k K. destruct (Nat.eq_dec k 2) as [->|]; [exact E2|].
      destruct (Nat.eq_dec k (3 + 2 * length chunks)) as [->|]; [exact E3|].
      destruct (Nat.eq_dec k (S (3 + 2 * length chunks))) as [->|]; [exact E4|].
      destruct (Nat.eq_dec k (S (S (3 + 2 * length chunks)))) as [->|]; [exact E5|]. apply P. lia. }
    destruct (Nat.eq_dec n 0) as [->|]; [congruence|]. destruct (Nat.eq_dec n 1) as [->|]; [congruence|]. apply F, clean. lia. }
  assert (T2 : fs_target s2 = fs_target s) by (rewrite QT; reflexivity).
  assert (U : fs_target (snd (unlink_existing o n1 s2)) = fs_target s2).
  { unfold unlink_existing. destruct (fs_tmp s2); [|reflexivity]. unfold unlink, prim. destruct (o n1); reflexivity. }
  assert (V : forall m t, fs_target (snd (save_cache o m t)) = fs_target t).
  { intros m t. unfold save_cache, prim. destruct (o m); reflexivity. }
  destruct k.
  - destruct (unlink_existing o n1 s2) as [[[x|kk] n3] s3]; cbn in U.
    + specialize (V n3 s3). destruct (save_cache o n3 s3) as [[[y|ky] n4] s4]; cbn in V; injection W as <- <- <-; split; try congruence; eauto.
    + destruct kk.
      * specialize (V n3 s3). destruct (save_cache o n3 s3) as [[[y|ky] n4] s4]; cbn in V; injection W as <- <- <-; split; try congruence; eauto.
      * specialize (V n3 s3). destruct (save_cache o n3 s3) as [[[y|ky] n4] s4]; cbn in V; injection W as <- <- <-; split; try congruence; eauto.
      * injection W as <- <- <-. split; [congruence|eauto].
  - specialize (V n1 s2). destruct (save_cache o n1 s2) as [[[y|ky] n4] s4]; cbn in V; injection W as <- <- <-; split; try congruence; eauto.
  - injection W as <- <- <-. split; [congruence|eauto].
Qed.

(** C44, an exception in one step of the build itself and no other fault: the
    temporary file is removed and the exception is passed on. *)
Theorem C44_no_temp_partial : forall R same_fs chunks new (r : R) n part s, fs_tmp s = None ->
  (n < steps_before_move chunks)%nat ->
  let o := fun k => if Nat.eqb k n then Some (mkFault FExc part) else None in
  fs_tmp (snd (write same_fs chunks new r o 0%nat s)) = None /\
  fst (fst (write same_fs chunks new r o 0%nat s)) = Raised FExc.
Proof.
  intros R same_fs chunks new r n part s T Hn o. unfold steps_before_move in Hn.
  assert (other : forall k, k <> n -> o k = None) by (intros k K; unfold o; destruct (Nat.eqb_spec k n); [contradiction|reflexivity]).
  assert (here : o n = Some (mkFault FExc part)) by (unfold o; now rewrite Nat.eqb_refl). clearbody o.
  destruct (write same_fs chunks new r o 0%nat s) as [[res0 n0] s0] eqn:Wr. cbn [fst snd]. unfold write in Wr.
  unfold andthen at 1, compute at 1, prim at 1 in Wr.
  destruct (Nat.eq_dec n 0) as [->|N0]; [rewrite here in Wr; injection Wr as <- <- <-; split; [exact T|reflexivity]|]. rewrite (other 0%nat) in Wr by auto.
  unfold andthen at 1, make_tmp, prim at 1 in Wr.
  destruct (Nat.eq_dec n 1) as [->|N1]; [rewrite here in Wr; injection Wr as <- <- <-; split; [exact T|reflexivity]|]. rewrite (other 1%nat) in Wr by auto.
  unfold finally, handler in Wr. unfold andthen at 1 in Wr. set (s1 := set_tmp (Some []) s) in Wr.
  assert (W : exists c, do_write chunks new r o 2%nat s1 = (Raised FExc, S n, c) /\ exists x, fs_tmp c = Some x).
  { assert (PF : forall l m t, (exists x, fs_tmp t = Some x) -> (m <= n < m + 2 * length l)%nat -> exists c, puts l o m t = (Raised FExc, S n, c) /\ exists x, fs_tmp c = Some x).
    { induction l as [|d l IH]; intros m t [x Tx] L; [cbn in L; lia|]. cbn [length] in L. cbn [puts]. unfold andthen at 1, compute, prim at 1.
      destruct (Nat.eq_dec n m) as [<-|Nm]; [rewrite here; eexists; split; [reflexivity|unfold nothing; eauto]|]. rewrite (other m) by auto.
      unfold andthen, put, prim. destruct (Nat.eq_dec n (S m)) as [Em|Nm2].
      - rewrite <- Em, here. eexists. split; [reflexivity|]. cbn. rewrite Tx. cbn. eauto.
      - rewrite (other (S m)) by auto. apply IH; [cbn; rewrite Tx; cbn; eauto|lia]. }
    unfold do_write. unfold andthen at 1, compute at 1, prim at 1.
    destruct (Nat.eq_dec n 2) as [->|N2]; [rewrite here; eexists; split; [reflexivity|cbn; eauto]|]. rewrite (other 2%nat) by auto.
    unfold andthen at 1. destruct (lt_dec n (3 + 2 * length chunks)) as [L|L].
    { destruct (PF chunks 3%nat s1) as (c & E & X); [eexists; reflexivity|lia|]. rewrite E. eauto. }
    rewrite puts_clean by (intros k K; apply other; lia). cbn [fs_tmp set_tmp s1 option_map].
    unfold andthen at 1, repatch, prim at 1. destruct (Nat.eq_dec n (3 + 2 * length chunks)) as [En|N3].
    { rewrite <- En, here. eexists. split; [reflexivity|]. cbn. eauto. }
    rewrite (other (3 + 2 * length chunks)%nat) by auto.
    unfold andthen at 1, save_idmap, prim at 1. destruct (Nat.eq_dec n (S (3 + 2 * length chunks))) as [En|N4].
    { rewrite <- En, here. eexists. split; [reflexivity|]. cbn. eauto. }
    rewrite (other (S (3 + 2 * length chunks))) by auto.
    unfold andthen, compute, prim. assert (En : n = S (S (3 + 2 * length chunks))) by lia.
    rewrite <- En, here. eexists. split; [reflexivity|]. cbn. eauto. }
  destruct W as (c & E & x & X). rewrite E in Wr. unfold unlink_existing in Wr. rewrite X in Wr. unfold unlink, prim in Wr. rewrite (other (S n)) in Wr by lia.
  unfold save_cache, prim in Wr. rewrite (other (S (S n))) in Wr by lia. injection Wr as <- <- <-. split; reflexivity.
Qed.
(** What is missing: an interrupt (KeyboardInterrupt is no Exception) or the
    death of the process leaves the temporary file behind. *)
Theorem C44_interrupt_refuted : exists chunks new o s, let s' := snd (write true chunks new tt o 0%nat s) in
  (exists n part, o = fun k => if Nat.eqb k n then Some (mkFault FBase part) else None) /\ fs_tmp s = None /\ fs_tmp s' = Some [1].
Proof.
  exists [[1; 2]], [3], (fun k => if Nat.eqb k 4 then Some (mkFault FBase 1) else None), (mkFs None None false false).
  split; [eauto|]. split; reflexivity.
Qed.
(** When the temporary directory is on another file system the move is a copy:
    a failure in it (disk full) leaves a truncated target. *)
Theorem C44_copy_refuted : exists chunks new o s, let s' := snd (write false chunks new tt o 0%nat s) in
  (exists n part, o = fun k => if Nat.eqb k n then Some (mkFault FExc part) else None) /\
  fs_target s = Some [9] /\ new = [1; 2] /\ fs_target s' = Some [1].
Proof.
  exists [[1; 2]], [1; 2], (fun k => if Nat.eqb k 8 then Some (mkFault FExc 1) else None), (mkFs (Some [9]) None false false).
  split; [eauto|]. split; [reflexivity|]. split; reflexivity.
Qed.
(** A case of the hypotheses. *)
Example C44_case : (4 < steps_before_move [[1%Z; 2%Z]])%nat /\
  snd (write true [[1; 2]] [3] tt (fun k => if Nat.eqb k 4 then Some (mkFault FExc 1) else None) 0%nat (mkFs (Some [9]) None false false))
    = mkFs (Some [9]) None false true.
Proof. split; [cbn; lia|reflexivity]. Qed.

(** C54: write() should return the files of all resource actions.  It does so
    only if there are none: as soon as one resource action is listed the result
    is empty. *)
Lemma returned_resources : forall res sched written l, exists l', returned res written sched (map WResource l) = map WResource l'.
Proof.
  intros res. induction sched as [|e rest IH]; intros written l; cbn [returned]; [eauto|]. destruct (mem (en_sprite e) written); apply IH.
Qed.
Lemma watched_resources : forall files l, watched files (map WResource l) = [].
Proof. intros files. induction l as [|x l IH]; [reflexivity|exact IH]. Qed.
Theorem C54_watched_partial : forall files res sprites, (forall s, In s sprites -> files s = None) ->
  write_returns files res sprites = flat_map (need files) sprites.
Proof.
  intros files res sprites H. unfold write_returns.
  destruct (enumerate_sprites files (fun _ => None) sprites) as [sched ids] eqn:E. destruct (enumerate_any _ _ _ _ _ E) as [S _]. cbn [fst].
  destruct sched as [|e rest].
  - cbn [returned]. unfold watched. induction sprites as [|s l IH]; [reflexivity|]. cbn [map flat_map]. unfold need at 1.
    rewrite (H s (or_introl eq_refl)). cbn [app].
    clear IH E S. induction l as [|x l IH]; [reflexivity|]. cbn [map flat_map]. unfold need at 1. rewrite (H x (or_intror (or_introl eq_refl))). cbn [app].
    apply IH. intros y [Y|Y]; apply H; [now left|right; now right].
  - exfalso.
    assert (X : In (en_sprite e) (resources files sprites)) by (apply S; now left).
    unfold resources in X. apply filter_In in X as [X1 X2]. rewrite (H _ X1) in X2. discriminate.
Qed.
Theorem C54_watched_refuted : forall files res sprites, resources files sprites <> [] -> write_returns files res sprites = [].
Proof.
  intros files res sprites H. unfold write_returns.
  destruct (enumerate_sprites files (fun _ => None) sprites) as [sched ids] eqn:E. destruct (enumerate_any _ _ _ _ _ E) as [S _]. cbn [fst].
  destruct sched as [|e rest].
  - exfalso. destruct (resources files sprites) as [|x l] eqn:R; [congruence|]. apply (S x). now left.
  - cbn [returned]. cbn [mem existsb]. destruct (returned_resources res rest [en_sprite e] (res (en_sprite e))) as [l' ->]. apply watched_resources.
Qed.

Print Assumptions C44_success.
Print Assumptions C44_target.
Print Assumptions C44_no_temp_partial.
Print Assumptions C44_interrupt_refuted.
Print Assumptions C44_copy_refuted.
Print Assumptions C54_watched_partial.
Print Assumptions C54_watched_refuted.
