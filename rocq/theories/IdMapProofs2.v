From Coq Require Import ZArith List Bool Lia String.
From Verif Require Import Base BaseFacts RecordsModel IdMapModel SpecIdMap IdMapProofs.
Import ListNotations.
Open Scope Z_scope.
Notation iget m := (dict_get skey_eqb m).

Definition extends (d0 d : jdata) : Prop := forall f n i, 0 <= f <= 20 -> says d0 f n i -> says d f n i.

Lemma minv_new : forall d, minv d new_map.
Proof. intro d. unfold minv, new_map. cbn. auto. Qed.
Lemma minv_reserve : forall d m ids, minv d m -> minv d (reserve ids m).
Proof. intros d m ids H. exact H. Qed.

Lemma save_minv : forall d m, file_good d -> minv d m ->
  exists d', save (Some d) m = Some d' /\ file_good d' /\ minv d' m /\ extends d d' /\
    (m_loaded m = true -> forall f n i, iget (m_index m) (f, n) = Some i -> says d' f n i).
Proof.
  intros d m G I. destruct (m_index m) as [|e l] eqn:E.
  - exists d. unfold save. rewrite E. split; [reflexivity|]. split; [exact G|]. split; [exact I|]. split; [intros f n i _ X; exact X|].
    intros L f n i X. discriminate.
  - assert (L : m_loaded m = true).
    { destruct (m_loaded m) eqn:L; [reflexivity|]. unfold minv in I. rewrite L in I. destruct I as [I _]. congruence. }
    unfold minv in I. rewrite L in I. destruct I as (B & ND & KK & IJ & SS).
    destruct (save_good (Some d) m ND KK) as (d' & S1 & S2 & S3); [rewrite E; discriminate|exact IJ|].
    exists d'. split; [exact S1|]. split; [exact S2|]. split; [|split].
    + unfold minv. rewrite L. split; [exact B|]. split; [exact ND|]. split; [exact KK|]. split; [exact IJ|]. intros f n i R X. now apply S3.
    + intros f n i R X. apply S3; [exact R|]. now apply SS.
    + intros _ f n i X. rewrite <- E in X. apply S3; [now apply (KK f n i)|exact X].
Qed.

(** ** Any history *)
Definition winv (d0 : jdata) (w : world) : Prop :=
  exists d, w_disk w = Some d /\ file_good d /\ extends d0 d /\ minv d (w_map w).

Lemma step_winv : forall d0 w s w' r, winv d0 w -> known s -> do_step w s = (w', r) -> winv d0 w' /\
  (forall f n, s = SResolve f (VStr n) -> exists j, r = Some j /\
    (forall i, says d0 f n i -> i = j) /\ (forall n' i, says d0 f n' i -> n' <> n -> i <> j)).
Proof.
  intros d0 w s w' r (d & D & G & X & I) K H. destruct w as [disk m]. cbn [w_disk w_map] in *. subst disk. destruct s as [f v|ids| |]; cbn [do_step w_disk w_map] in H.
  - destruct (resolve (Some d) m f v) as [m' r'] eqn:E. apply pair_inj in H as [<- <-]. cbn in K. destruct v as [n|n].
    + destruct (resolve_int d m f n m' r' G I E) as (m1 & _ & I' & _). split; [|discriminate]. exists d. cbn. auto.
    + destruct (resolve_str d m f n m' r' G I K E) as (i & -> & I' & L' & Gi & _). split; [exists d; cbn; auto|].
      intros g n0 Q. injection Q as <- <-. exists i. split; [reflexivity|]. unfold minv in I'. rewrite L' in I'. destruct I' as (_ & _ & _ & IJ & SS). split.
      * intros j S. apply X in S; [|exact K]. apply SS in S; [|exact K]. congruence.
      * intros n' j S Ne ->. apply X in S; [|exact K]. apply SS in S; [|exact K]. apply Ne. now apply (IJ f n' n i).
  - apply pair_inj in H as [<- <-]. split; [|discriminate]. exists d. cbn. split; [reflexivity|]. split; [exact G|]. split; [exact X|]. now apply minv_reserve.
  - apply pair_inj in H as [<- <-]. split; [|discriminate]. destruct (save_minv d m G I) as (d' & S1 & S2 & S3 & S4 & _). exists d'. cbn.
    split; [exact S1|]. split; [exact S2|]. split; [|exact S3]. intros f n i R S. apply S4; [exact R|]. now apply X.
  - apply pair_inj in H as [<- <-]. split; [|discriminate]. exists d. split; [reflexivity|]. split; [exact G|]. split; [exact X|]. exact (minv_new d).
Qed.

Lemma run_winv : forall d0 steps w w' tr, winv d0 w -> Forall known steps -> run w steps = (w', tr) -> winv d0 w' /\
  (forall f n r, In (SResolve f (VStr n), r) tr -> exists j, r = Some j /\
    (forall i, says d0 f n i -> i = j) /\ (forall n' i, says d0 f n' i -> n' <> n -> i <> j)).
Proof.
  intros d0. induction steps as [|s steps IH]; intros w w' tr I K H; cbn [run] in H.
  - apply pair_inj in H as [<- <-]. split; [exact I|]. intros f n j [].
  - inversion K as [|? ? K1 K2]; subst. destruct (do_step w s) as [w1 r] eqn:E. destruct (run w1 steps) as [w2 tr2] eqn:R.
    apply pair_inj in H as [<- <-]. destruct (step_winv d0 w s w1 r I K1 E) as [I1 S1]. destruct (IH w1 w2 tr2 I1 K2 R) as [I2 S2].
    split; [exact I2|]. intros f n j [Q|Q].
    + apply pair_inj in Q as [-> ->]. destruct (S1 f n eq_refl) as (i & -> & A). exists i. auto.
    + now apply S2.
Qed.

Lemma history_spec : forall d steps w' tr, file_good d -> Forall known steps ->
  run (mkWorld (Some d) new_map) steps = (w', tr) ->
  (exists d', w_disk w' = Some d' /\ file_good d' /\ extends d d') /\
  (forall f n r, In (SResolve f (VStr n), r) tr -> exists j, r = Some j /\
    (forall i, says d f n i -> i = j) /\ (forall n' i, says d f n' i -> n' <> n -> i <> j)).
Proof.
  intros d steps w' tr G K H. destruct (run_winv d steps (mkWorld (Some d) new_map) w' tr) with (2 := K) (3 := H) as [(d' & A & B & C & _) S].
  - exists d. split; [reflexivity|]. split; [exact G|]. split; [intros f n i _ X; exact X|]. exact (minv_new d).
  - split; [exists d'; auto|exact S].
Qed.

(** ** One session *)
Definition sinv (d0 : jdata) (tr : list (step * option Z)) (m : idmap) : Prop :=
  (forall f n i, got tr f n i -> m_loaded m = true /\ iget (m_index m) (f, n) = Some i) /\
  (forall f n, accepted tr f n -> In (f, VInt n) (m_manual m)) /\
  (forall f n i, iget (m_index m) (f, n) = Some i -> says d0 f n i \/ (In (f, VInt i) (m_auto m) /\ ~ accepted tr f i)) /\
  (forall f i, In (f, VInt i) (m_auto m) -> exists n, got tr f n i /\ ~ says d0 f n i) /\
  (forall f n, In (SResolve f (VInt n), None) tr -> In (f, VInt n) (m_auto m)).

(** The file from which the map would be loaded is still the first one. *)
Definition base (d0 d : jdata) (m : idmap) : Prop := m_loaded m = false -> d = d0.

Lemma got_snoc : forall tr e f n i, got (tr ++ [e]) f n i <-> got tr f n i \/ e = (SResolve f (VStr n), Some i).
Proof. intros. unfold got. rewrite in_app_iff. cbn. intuition. Qed.
Lemma acc_snoc : forall tr e f n, accepted (tr ++ [e]) f n <-> accepted tr f n \/ e = (SResolve f (VInt n), Some n).
Proof. intros. unfold accepted. rewrite in_app_iff. cbn. intuition. Qed.
Lemma in_snoc : forall {A} (tr : list A) e x, In x (tr ++ [e]) <-> In x tr \/ e = x.
Proof. intros. rewrite in_app_iff. cbn. intuition. Qed.

Lemma load_sinv : forall d0 d tr m m1, file_good d -> minv d m -> base d0 d m -> sinv d0 tr m -> load (Some d) m = Some m1 -> sinv d0 tr m1.
Proof.
  intros d0 d tr m m1 G I Bs (S1 & S2 & S3 & S4 & S5) E. destruct (load_minv d m G I) as (m' & E' & _ & L' & M' & Y & N).
  rewrite E in E'. apply some_inj in E'. subst m'. destruct (m_loaded m) eqn:L.
  - rewrite (Y eq_refl). assert (S1' : forall f n i, got tr f n i -> m_loaded m = true /\ iget (m_index m) (f, n) = Some i).
    { intros f n i X. split; [exact L|]. now apply S1 in X as [_ X]. }
    exact (conj S1' (conj S2 (conj S3 (conj S4 S5)))).
  - destruct (N eq_refl) as [N1 N2]. rewrite (Bs L) in *. split; [|split; [|split; [|split]]].
    + intros f n i X. destruct (S1 f n i X) as [Z _]. congruence.
    + intros f n X. rewrite M'. now apply S2.
    + intros f n i X. left. now apply N1.
    + intros f i X. now apply N2 in X.
    + intros f n X. apply S5 in X. unfold minv in I. rewrite L in I. destruct I as (_ & _ & A). rewrite A in X. contradiction.
Qed.

Lemma step_sinv : forall d0 d tr m s w' r, file_good d -> minv d m -> base d0 d m -> sinv d0 tr m -> known s -> s <> SRestart -> extends d0 d ->
  do_step (mkWorld (Some d) m) s = (w', r) ->
  exists d', w_disk w' = Some d' /\ file_good d' /\ minv d' (w_map w') /\ base d0 d' (w_map w') /\ extends d0 d' /\ sinv d0 (tr ++ [(s, r)]) (w_map w').
Proof.
  intros d0 d tr m s w' r G I Bs S K Nr Ex H. destruct s as [f v|ids| |]; cbn [do_step w_disk w_map] in H; [| | |contradiction].
  - destruct (resolve (Some d) m f v) as [m' r'] eqn:E. apply pair_inj in H as [<- <-]. cbn in K. exists d. cbn [w_disk w_map].
    split; [reflexivity|]. split; [exact G|]. destruct v as [n|n].
    + destruct (resolve_int d m f n m' r' G I E) as (m1 & E1 & I' & L' & X1 & X2 & X3 & X4).
      pose proof (load_sinv d0 d tr m m1 G I Bs S E1) as (S1 & S2 & S3 & S4 & S5). destruct S as (_ & T2 & _).
      split; [exact I'|]. split; [intro Z; congruence|]. split; [exact Ex|].
      split; [|split; [|split; [|split]]].
      * intros g a i Q. apply got_snoc in Q as [Q|Q]; [|discriminate]. split; [exact L'|]. rewrite X1. now apply S1.
      * intros g a Q. apply acc_snoc in Q as [Q|Q]; [apply X3; now apply T2|].
        apply pair_inj in Q as [Q1 Q2]. injection Q1 as -> ->. destruct X4 as [(_ & X4 & _)|(X4 & _)]; [exact X4|]. congruence.
      * intros g a i Q. rewrite X1 in Q. rewrite X2. apply S3 in Q as [Q|[Q1 Q2]]; [now left|]. right. split; [exact Q1|].
        intro A. apply acc_snoc in A as [A|A]; [contradiction|]. apply pair_inj in A as [A1 A2]. injection A1 as -> ->.
        destruct X4 as [(_ & _ & X4)|(X4 & _)]; [contradiction|congruence].
      * intros g i Q. rewrite X2 in Q. destruct (S4 g i Q) as (a & A1 & A2). exists a. split; [apply got_snoc; now left|exact A2].
      * intros g a Q. apply in_snoc in Q as [Q|Q]; [rewrite X2; now apply S5|]. apply pair_inj in Q as [Q1 Q2]. injection Q1 as -> ->.
        destruct X4 as [(X4 & _)|(_ & X4)]; [congruence|]. now rewrite X2.
    + destruct (resolve_str d m f n m' r' G I K E) as (i & -> & I' & L' & Gi & M' & m1 & E1 & Mono & Cases).
      pose proof (load_sinv d0 d tr m m1 G I Bs S E1) as (S1 & S2 & S3 & S4 & S5). destruct S as (_ & T2 & _).
      split; [exact I'|]. split; [intro Z; congruence|]. split; [exact Ex|].
      assert (NA : forall g a, accepted (tr ++ [(SResolve f (VStr n), Some i)]) g a <-> accepted tr g a).
      { intros g a. rewrite acc_snoc. split; [|now left]. intros [Q|Q]; [exact Q|discriminate]. }
      assert (NR : forall g a, In (SResolve g (VInt a), None) (tr ++ [(SResolve f (VStr n), Some i)]) -> In (SResolve g (VInt a), None) tr).
      { intros g a Q. apply in_snoc in Q as [Q|Q]; [exact Q|discriminate]. }
      assert (G1 : forall g a j, got (tr ++ [(SResolve f (VStr n), Some i)]) g a j -> m_loaded m' = true /\ iget (m_index m') (g, a) = Some j).
      { intros g a j Q. split; [exact L'|]. apply got_snoc in Q as [Q|Q]; [apply Mono; now apply S1|].
        apply pair_inj in Q as [Q1 Q2]. injection Q1 as <- <-. apply some_inj in Q2. now subst. }
      split; [exact G1|]. split; [intros g a Q; apply NA in Q; rewrite M'; now apply T2|].
      destruct Cases as [->|(C1 & C2 & C3 & C4)].
      * split; [|split].
        -- intros g a j Q. apply S3 in Q as [Q|[Q1 Q2]]; [now left|]. right. split; [exact Q1|]. now rewrite NA.
        -- intros g j Q. destruct (S4 g j Q) as (a & A1 & A2). exists a. split; [apply got_snoc; now left|exact A2].
        -- intros g a Q. apply S5. now apply NR.
      * rewrite C3. split; [|split].
        -- intros g a j Q. apply C4 in Q as [(-> & -> & ->)|Q].
           ++ right. split; [now left|]. rewrite NA. intro A. apply T2 in A. contradiction.
           ++ apply S3 in Q as [Q|[Q1 Q2]]; [now left|]. right. split; [now right|]. now rewrite NA.
        -- intros g j [Q|Q].
           ++ apply pair_inj in Q as [-> Q]. injection Q as ->. exists n. split; [apply got_snoc; now right|].
              intro Sy. apply Ex in Sy; [|exact K].
              destruct (load_minv d m G I) as (mm & E2 & I2 & L2 & _). rewrite E1 in E2. apply some_inj in E2. subst mm.
              unfold minv in I2. rewrite L2 in I2. destruct I2 as (_ & _ & _ & _ & SS). apply SS in Sy; [|exact K]. congruence.
           ++ destruct (S4 g j Q) as (a & A1 & A2). exists a. split; [apply got_snoc; now left|exact A2].
        -- intros g a Q. right. apply S5. now apply NR.
  - apply pair_inj in H as [<- <-]. exists d. cbn [w_disk w_map]. split; [reflexivity|]. split; [exact G|]. split; [exact I|]. split; [exact Bs|]. split; [exact Ex|].
    destruct S as (S1 & S2 & S3 & S4 & S5). split; [|split; [|split; [|split]]]; cbn [reserve m_loaded m_index m_auto m_manual].
    + intros g a i Q. apply got_snoc in Q as [Q|Q]; [now apply S1|discriminate].
    + intros g a Q. apply acc_snoc in Q as [Q|Q]; [apply in_or_app; right; now apply S2|discriminate].
    + intros g a i Q. apply S3 in Q as [Q|[Q1 Q2]]; [now left|]. right. split; [exact Q1|]. intro A. apply acc_snoc in A as [A|A]; [contradiction|discriminate].
    + intros g i Q. destruct (S4 g i Q) as (a & A1 & A2). exists a. split; [apply got_snoc; now left|exact A2].
    + intros g a Q. apply in_snoc in Q as [Q|Q]; [now apply S5|discriminate].
  - apply pair_inj in H as [<- <-]. destruct (save_minv d m G I) as (d' & P1 & P2 & P3 & P4 & _). exists d'. cbn [w_disk w_map].
    split; [exact P1|]. split; [exact P2|]. split; [exact P3|].
    split; [|split; [intros f n i R X; apply P4; [exact R|now apply Ex]|]].
    + intro L. specialize (Bs L). unfold minv in I. rewrite L in I. destruct I as (I & _). unfold save in P1. rewrite I in P1. apply some_inj in P1. congruence.
    + destruct S as (S1 & S2 & S3 & S4 & S5). split; [|split; [|split; [|split]]].
      * intros g a i Q. apply got_snoc in Q as [Q|Q]; [now apply S1|discriminate].
      * intros g a Q. apply acc_snoc in Q as [Q|Q]; [now apply S2|discriminate].
      * intros g a i Q. apply S3 in Q as [Q|[Q1 Q2]]; [now left|]. right. split; [exact Q1|]. intro A. apply acc_snoc in A as [A|A]; [contradiction|discriminate].
      * intros g i Q. destruct (S4 g i Q) as (a & A1 & A2). exists a. split; [apply got_snoc; now left|exact A2].
      * intros g a Q. apply in_snoc in Q as [Q|Q]; [now apply S5|discriminate].
Qed.

Lemma run_sinv : forall d0 steps d tr0 m w' tr, file_good d -> minv d m -> base d0 d m -> sinv d0 tr0 m -> Forall known steps -> one_session steps -> extends d0 d ->
  run (mkWorld (Some d) m) steps = (w', tr) ->
  exists d', w_disk w' = Some d' /\ file_good d' /\ minv d' (w_map w') /\ sinv d0 (tr0 ++ tr) (w_map w') /\ extends d0 d' /\ base d0 d' (w_map w').
Proof.
  intros d0. induction steps as [|s steps IH]; intros d tr0 m w' tr G I Bs S K O Ex H; cbn [run] in H.
  - apply pair_inj in H as [<- <-]. exists d. rewrite app_nil_r. cbn [w_disk w_map]. auto 10.
  - inversion K as [|? ? K1 K2]; subst. destruct (do_step (mkWorld (Some d) m) s) as [w1 r] eqn:E. destruct (run w1 steps) as [w2 tr2] eqn:R.
    apply pair_inj in H as [<- <-].
    assert (Ns : s <> SRestart) by (intros ->; apply O; now left).
    destruct (step_sinv d0 d tr0 m s w1 r G I Bs S K1 Ns Ex E) as (d' & D' & G' & I' & B' & Ex' & S').
    destruct w1 as [disk1 m1]. cbn [w_disk w_map] in *. subst disk1.
    destruct (IH d' (tr0 ++ [(s, r)]) m1 w2 tr2 G' I' B' S' K2) as (d2 & Y1 & Y2 & Y3 & Y4 & Y5 & Y6).
    + intro X. apply O. now right.
    + exact Ex'.
    + exact R.
    + exists d2. rewrite <- app_assoc in Y4. auto 10.
Qed.

Lemma session_spec : forall d steps w' tr, file_good d -> Forall known steps -> one_session steps ->
  run (mkWorld (Some d) new_map) steps = (w', tr) ->
  (exists d', w_disk w' = Some d' /\ file_good d' /\ minv d' (w_map w')) /\
  (forall f n i, got tr f n i -> m_loaded (w_map w') = true /\ iget (m_index (w_map w')) (f, n) = Some i) /\
  (forall f a b i j, got tr f a i -> got tr f b j -> (i = j <-> a = b)) /\
  (forall f n i, got tr f n i -> says d f n i \/ ~ accepted tr f i) /\
  (forall f i, In (SResolve f (VInt i), None) tr -> exists n, got tr f n i /\ ~ says d f n i).
Proof.
  intros d steps w' tr G K O H.
  destruct (run_sinv d steps d [] new_map w' tr) as (d' & D & G' & I' & (S1 & S2 & S3 & S4 & S5) & _); try assumption.
  - apply minv_new.
  - intro. reflexivity.
  - split; [intros f n i []|]. split; [intros f n []|]. split; [discriminate|]. split; [intros f i []|intros f n []].
  - intros f n i _ X. exact X.
  - cbn [app] in *. split; [exists d'; auto|]. split; [exact S1|]. split; [|split].
    + intros f a b i j A B. destruct (S1 f a i A) as [L A']. destruct (S1 f b j B) as [_ B']. unfold minv in I'. rewrite L in I'. destruct I' as (_ & _ & _ & IJ & _).
      split; [intros ->; now apply (IJ f a b j)|intros ->; congruence].
    + intros f n i A. destruct (S1 f n i A) as [_ A']. apply S3 in A' as [A'|[_ A']]; auto.
    + intros f i A. apply S4. now apply S5.
Qed.

(** Two sessions with a save between them. *)
Lemma run_app : forall s1 s2 w, run w (s1 ++ s2) =
  let '(w1, t1) := run w s1 in let '(w2, t2) := run w1 s2 in (w2, t1 ++ t2).
Proof.
  induction s1 as [|s s1 IH]; intros s2 w; cbn [app run]; [destruct (run w s2); reflexivity|].
  destruct (do_step w s) as [w1 r]. rewrite IH. destruct (run w1 s1) as [w2 t1]. destruct (run w2 s2) as [w3 t2]. reflexivity.
Qed.
Lemma across_spec : forall d s1 s2 w1 t1 w2 t2, file_good d -> Forall known s1 -> Forall known s2 -> one_session s1 ->
  run (mkWorld (Some d) new_map) s1 = (w1, t1) ->
  run w1 (SSave :: SRestart :: s2) = (w2, t2) ->
  forall f n i, 0 <= f <= 20 -> got t1 f n i ->
    (forall r, In (SResolve f (VStr n), r) t2 -> r = Some i) /\
    (forall n' j, got t2 f n' j -> n' <> n -> j <> i).
Proof.
  intros d s1 s2 w1 t1 w2 t2 G K1 K2 O H1 H2 f n i Rf A.
  destruct (session_spec d s1 w1 t1 G K1 O H1) as ((d1 & D1 & G1 & I1) & S1 & _).
  destruct (S1 f n i A) as [L X]. destruct w1 as [disk m]. cbn [w_disk w_map] in *. subst disk.
  cbn [run do_step w_disk w_map] in H2. destruct (save_minv d1 m G1 I1) as (d' & P1 & P2 & P3 & P4 & P5). rewrite P1 in H2.
  destruct (run (mkWorld (Some d') new_map) s2) as [w3 t3] eqn:R. apply pair_inj in H2 as [<- <-].
  destruct (history_spec d' s2 w3 t3 P2 K2 R) as [_ Q].
  assert (Sy : says d' f n i) by (apply P5; [exact L|exact X]).
  split.
  - intros r [E|[E|E]]; [discriminate|discriminate|]. destruct (Q f n r E) as (j & -> & Q1 & _). now rewrite (Q1 i Sy).
  - intros n' j [E|[E|E]] Ne; [discriminate|discriminate|]. destruct (Q f n' (Some j) E) as (k & Ek & _ & Q2). apply some_inj in Ek. subst k.
    intros ->. apply (Q2 n i Sy); congruence.
Qed.

(** ** Reserved ids *)
Definition rinv (ids : list fkey) (P : Z -> string -> Z -> Prop) (d : jdata) (m : idmap) : Prop :=
  incl ids (m_manual m) /\
  (m_loaded m = false -> forall f n i, 0 <= f <= 20 -> says d f n i -> P f n i) /\
  (forall f n i, iget (m_index m) (f, n) = Some i -> P f n i \/ ~ In (f, VInt i) ids).
Lemma run_rinv : forall ids P d0 steps d tr0 m w' tr, file_good d -> minv d m -> base d0 d m -> sinv d0 tr0 m -> extends d0 d -> rinv ids P d m ->
  Forall known steps -> one_session steps ->
  run (mkWorld (Some d) m) steps = (w', tr) ->
  forall f n i, got tr f n i -> P f n i \/ ~ In (f, VInt i) ids.
Proof.
  intros ids P d0. induction steps as [|s steps IH]; intros d tr0 m w' tr G I Bs Sv Ex (R1 & R2 & R3) K O H; cbn [run] in H.
  - apply pair_inj in H as [<- <-]. intros f n i [].
  - inversion K as [|? ? K1 K2]; subst. destruct (do_step (mkWorld (Some d) m) s) as [w1 r] eqn:E. destruct (run w1 steps) as [w2 tr2] eqn:R.
    apply pair_inj in H as [<- <-].
    assert (Ns : s <> SRestart) by (intros ->; apply O; now left).
    destruct (step_sinv d0 d tr0 m s w1 r G I Bs Sv K1 Ns Ex E) as (d' & D' & G' & I' & B' & Ex' & S').
    assert (Ld : forall m1, load (Some d) m = Some m1 -> forall f n i, iget (m_index m1) (f, n) = Some i -> P f n i \/ ~ In (f, VInt i) ids).
    { intros m1 Em f n i X. destruct (load_minv d m G I) as (m' & E' & I2 & L2 & _ & Y & N). rewrite Em in E'. apply some_inj in E'. subst m'.
      destruct (m_loaded m) eqn:L; [rewrite (Y eq_refl) in X; now apply R3|]. left. apply R2; [reflexivity| |now apply (proj1 (N eq_refl))].
      unfold minv in I2. rewrite L2 in I2. destruct I2 as (_ & _ & KK & _). now apply (KK f n i). }
    assert (Q : rinv ids P d' (w_map w1) /\ forall f n i, (s, r) = (SResolve f (VStr n), Some i) -> P f n i \/ ~ In (f, VInt i) ids).
    { destruct s as [f v|ids'| |]; cbn [do_step w_disk w_map] in E; [| | |contradiction].
      - destruct (resolve (Some d) m f v) as [m' r'] eqn:Er. apply pair_inj in E as [<- <-]. cbn [w_disk w_map] in *. apply some_inj in D'. subst d'.
        cbn in K1. destruct v as [n|n].
        + destruct (resolve_int d m f n m' r' G I Er) as (m1 & E1 & _ & L' & X1 & X2 & X3 & X4). split; [|discriminate]. split; [|split].
          * intros x X. apply X3. now apply R1.
          * congruence.
          * rewrite X1. now apply Ld.
        + destruct (resolve_str d m f n m' r' G I K1 Er) as (i & -> & _ & L' & Gi & M' & m1 & E1 & Mono & Cases).
          assert (R3' : forall f n i, iget (m_index m') (f, n) = Some i -> P f n i \/ ~ In (f, VInt i) ids).
          { destruct Cases as [->|(C1 & C2 & C3 & C4)]; [now apply Ld|]. intros g a j X. apply C4 in X as [(-> & -> & ->)|X]; [|now apply (Ld m1 E1)].
            right. intro Y. apply C2. now apply R1. }
          split.
          * split; [rewrite M'; exact R1|]. split; [congruence|exact R3'].
          * intros g a j Qe. apply pair_inj in Qe as [Q1 Q2]. injection Q1 as <- <-. apply some_inj in Q2. subst j. now apply R3'.
      - apply pair_inj in E as [<- <-]. cbn [w_disk w_map] in *. apply some_inj in D'. subst d'. split; [|discriminate].
        split; [intros x X; cbn; apply in_or_app; right; now apply R1|]. split; [exact R2|exact R3].
      - apply pair_inj in E as [<- <-]. cbn [w_disk w_map] in *. split; [|discriminate]. split; [exact R1|]. split; [|exact R3].
        intros L. unfold minv in I. rewrite L in I. destruct I as (I & _). unfold save in D'. rewrite I in D'. apply some_inj in D'. subst d'. now apply R2. }
    destruct Q as [Q1 Q2]. destruct w1 as [disk1 m1]. cbn [w_disk w_map] in *. subst disk1.
    intros f n i [X|X]; [now apply Q2|].
    apply (IH d' (tr0 ++ [(s, r)]) m1 w2 tr2); try assumption. intro Y. apply O. now right.
Qed.

Lemma reserved_spec : forall d ids s1 s2 w1 t1 w2 t2, file_good d -> Forall known s1 -> Forall known s2 -> one_session s1 -> one_session s2 ->
  run (mkWorld (Some d) new_map) s1 = (w1, t1) ->
  run w1 (SReserve ids :: s2) = (w2, t2) ->
  forall f n i, got t2 f n i -> In (f, VInt i) ids -> says d f n i \/ got t1 f n i.
Proof.
  intros d ids s1 s2 w1 t1 w2 t2 G K1 K2 O1 O2 H1 H2 f n i A R.
  assert (Ex0 : extends d d) by (intros a b c _ X; exact X).
  destruct (run_sinv d s1 d [] new_map w1 t1) as (d1 & D1 & G1 & I1 & S1 & Ex & Bs); try assumption.
  { apply minv_new. } { intro. reflexivity. }
  { split; [intros a b c []|]. split; [intros a b []|]. split; [discriminate|]. split; [intros a b []|intros a b []]. }
  cbn [app] in S1. destruct w1 as [disk m]. cbn [w_disk w_map] in *. subst disk. cbn [run do_step w_disk w_map] in H2.
  destruct (run (mkWorld (Some d1) (reserve ids m)) s2) as [w3 t3] eqn:R3. apply pair_inj in H2 as [<- <-].
  destruct A as [A|A]; [discriminate|].
  assert (Sr : sinv d t1 (reserve ids m)).
  { destruct S1 as (A1 & A2 & A3 & A4 & A5). split; [exact A1|]. split; [intros a b X; cbn; apply in_or_app; right; now apply A2|]. split; [exact A3|]. split; [exact A4|exact A5]. }
  assert (Rv : rinv ids (fun f n i => says d f n i \/ got t1 f n i) d1 (reserve ids m)).
  { split; [cbn; intros x X; apply in_or_app; now left|]. split.
    - intros L a b c _ X. left. now rewrite <- (Bs L).
    - cbn. intros a b c X. left. destruct S1 as (A1 & A2 & A3 & A4 & A5). destruct (A3 a b c X) as [Y|[Y _]]; [now left|].
      right. destruct (A4 a c Y) as (n' & Gn & _). destruct (A1 a n' c Gn) as [L Z]. unfold minv in I1. rewrite L in I1.
      destruct I1 as (_ & _ & _ & IJ & _). rewrite (IJ a b n' c X Z). exact Gn. }
  destruct (run_rinv ids _ d s2 d1 t1 (reserve ids m) w3 t3 G1 I1 Bs Sr Ex Rv K2 O2 R3 f n i A) as [X|X]; [exact X|contradiction].
Qed.
