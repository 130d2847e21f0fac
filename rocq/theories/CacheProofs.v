From Coq Require Import ZArith List Bool Arith Lia.
From Verif Require Import Base BaseFacts CacheModel SpecCache.
Import ListNotations.

Lemma kmem_In : forall k l, kmem k l = true <-> In k l.
Proof.
  intros k l. unfold kmem. rewrite existsb_exists. split.
  - intros (x & X & E). apply Nat.eqb_eq in E. now subst.
  - intro H. exists k. split; [exact H|apply Nat.eqb_refl].
Qed.
Lemma kmem_no : forall k l, kmem k l = false <-> ~ In k l.
Proof. intros k l. rewrite <- kmem_In. destruct (kmem k l); split; congruence. Qed.
Lemma kset_eq : forall {A} (f : key -> A) k v, kset f k v k = v.
Proof. intros. unfold kset. now rewrite Nat.eqb_refl. Qed.
Lemma kset_neq : forall {A} (f : key -> A) k v x, x <> k -> kset f k v x = f x.
Proof. intros. unfold kset. apply Nat.eqb_neq in H. now rewrite H. Qed.

(** A file whose key is listed, on disk or in memory, is missing or holds what
    was last stored. *)
Definition fok (S : key -> option bytes) (w : cworld) : Prop :=
  forall k b, (listed (fst w) k \/ In k (c_index (snd w))) -> d_files (fst w) k = Some b -> S k = Some b.

(** The effect of one operation on what was last stored. *)
Definition upd1 (S : key -> option bytes) (o : cop) (r : option bytes) : key -> option bytes :=
  match o with
  | OSet x v => fun k => if Nat.eqb x k then Some v else S k
  | OData x _ => fun k => if Nat.eqb x k then r else S k
  | _ => S
  end.
Lemma last_stored_cons : forall o ops r rs k acc, last_stored (o :: ops) (r :: rs) k acc = last_stored ops rs k (upd1 (fun _ => acc) o r k).
Proof. intros o ops r rs k acc. destruct o; reflexivity. Qed.
Lemma upd1_at : forall S o r k, upd1 S o r k = upd1 (fun _ => S k) o r k.
Proof. intros S o r k. destruct o; reflexivity. Qed.

Lemma set_fok : forall S d c k v, fok S (d, c) -> fok (fun x => if Nat.eqb k x then Some v else S x) (cache_set d c k v).
Proof.
  intros S d c k v H x b L F. unfold cache_set in *. cbn [fst snd d_files] in *. destruct (Nat.eqb k x) eqn:E.
  - apply Nat.eqb_eq in E. subst x. rewrite kset_eq in F. exact F.
  - apply Nat.eqb_neq in E. rewrite kset_neq in F by congruence. apply (H x b); [|exact F]. cbn [fst snd].
    destruct L as [L|L]; [now left|]. cbn [c_index] in L. destruct (kmem k (c_index c)); [now right|]. destruct L as [L|L]; [congruence|now right].
Qed.
Lemma get_fok : forall S d c k c' r, fok S (d, c) -> cache_get d c k = (c', r) -> fok S (d, c') /\ (forall b, r = Some b -> S k = Some b) /\ c_index c' = c_index c.
Proof.
  intros S d c k c' r H E. unfold cache_get in E. destruct (kmem k (c_index c)) eqn:K; apply pair_inj in E as [<- <-].
  - split; [exact H|]. split; [|reflexivity]. intros b F. apply (H k b); [right; now apply kmem_In|exact F].
  - split; [exact H|]. split; [discriminate|reflexivity].
Qed.

Lemma step_fok : forall S w o w' r, fok S w -> cstep w o = (w', r) ->
  (match o with OSetDie k _ => ~ listed (fst w) k | _ => True end) ->
  fok (upd1 S o r) w' /\
  (forall k b, o = OGet k -> r = Some b -> S k = Some b) /\
  (forall k real, o = OData k real -> r = Some real \/ r = S k).
Proof.
  intros S [d c] o w' r H E Sf. destruct o as [clean|k|k v|k real| | |k part|gone|]; cbn [cstep] in E.
  - apply pair_inj in E as [<- <-]. split; [|split; discriminate]. cbn [upd1]. intros k b L F. apply (H k b); [|exact F].
    cbn [fst snd] in *. unfold cache_load in L. cbn [c_index] in L. left. destruct L as [L|L]; [exact L|]. unfold listed.
    destruct clean; [contradiction|]. destruct (d_index d); [exact L|contradiction].
  - destruct (cache_get d c k) as [c' r'] eqn:G. apply pair_inj in E as [<- <-]. destruct (get_fok S d c k c' r' H G) as (A & B & _).
    split; [exact A|]. split; [|discriminate]. intros k0 b Q R. injection Q as <-. now apply B.
  - apply pair_inj in E as [<- <-]. split; [|split; discriminate]. now apply set_fok.
  - unfold cached_data in E. destruct (cache_get d c k) as [c' [v|]] eqn:G; destruct (get_fok S d c k c' _ H G) as (A & B & _).
    + apply pair_inj in E as [<- <-]. split; [|split; [discriminate|]].
      * cbn [upd1]. intros x b L F. destruct (Nat.eqb k x) eqn:Q; [|now apply (A x b)].
        apply Nat.eqb_eq in Q. subst x. rewrite <- (A k b L F). symmetry. now apply B.
      * intros k0 real0 Q. injection Q as <- <-. right. symmetry. now apply B.
    + destruct (cache_set d c' k real) as [d1 c1] eqn:T. apply pair_inj in E as [<- <-]. split; [|split; [discriminate|]].
      * rewrite <- T. exact (set_fok S d c' k real A).
      * intros k0 real0 Q. injection Q as <- <-. now left.
  - apply pair_inj in E as [<- <-]. split; [|split; discriminate]. cbn [upd1]. intros k b L F. unfold cache_save in *. cbn [fst snd d_files d_index c_index] in *.
    destruct (stale c k); [discriminate|]. apply (H k b); [|exact F]. cbn [fst snd]. right. unfold listed in L. cbn [d_index] in L.
    destruct L as [L|L]; now apply filter_In in L.
  - apply pair_inj in E as [<- <-]. split; [|split; discriminate]. intros k b L F. apply (H k b); [|exact F]. cbn [fst snd new_cache c_index] in *. destruct L as [L|[]]. now left.
  - apply pair_inj in E as [<- <-]. split; [|split; discriminate]. cbn [upd1 fst] in *. intros x b L F. cbn [fst snd d_files new_cache c_index] in *.
    destruct L as [L|[]]. assert (N : x <> k) by (intros ->; contradiction). rewrite kset_neq in F by exact N. apply (H x b); [now left|exact F].
  - apply pair_inj in E as [<- <-]. split; [|split; discriminate]. intros k b L F. cbn [fst snd d_files new_cache c_index upd1] in *. unfold drop_files in F.
    destruct (stale c k && kmem k gone); [discriminate|]. destruct L as [L|[]]. apply (H k b); [now left|exact F].
  - apply pair_inj in E as [<- <-]. split; [|split; discriminate]. intros k b L F. destruct L as [L|L]; contradiction.
Qed.

Lemma fok_ext : forall S T w, (forall k, S k = T k) -> fok S w -> fok T w.
Proof. intros S T w E H k b L F. rewrite <- E. now apply (H k b). Qed.

Lemma run_fok : forall ops S w w' rs, fok S w -> safe_deaths w ops -> crun w ops = (w', rs) ->
  fok (fun k => last_stored ops rs k (S k)) w' /\
  (forall p1 o p2, ops = p1 ++ o :: p2 ->
     forall k b, (o = OGet k -> nth (length p1) rs None = Some b -> last_stored p1 (firstn (length p1) rs) k (S k) = Some b) /\
     (forall real, o = OData k real -> nth (length p1) rs None = Some real \/ nth (length p1) rs None = last_stored p1 (firstn (length p1) rs) k (S k))).
Proof.
  induction ops as [|o ops IH]; intros S w w' rs H Sd E; cbn [crun] in E.
  - apply pair_inj in E as [<- <-]. split; [exact H|]. intros p1 o p2 Q. destruct p1; discriminate.
  - destruct (cstep w o) as [w1 r] eqn:C. destruct (crun w1 ops) as [w2 rs2] eqn:R. apply pair_inj in E as [<- <-].
    cbn [safe_deaths] in Sd. rewrite C in Sd. destruct Sd as [Sd1 Sd2]. cbn [fst] in Sd2.
    destruct (step_fok S w o w1 r H C Sd1) as (A1 & A2 & A3).
    destruct (IH (upd1 S o r) w1 w2 rs2 A1 Sd2 R) as [B1 B2]. split.
    + eapply fok_ext; [|exact B1]. intro k. cbn beta. rewrite last_stored_cons. now rewrite <- upd1_at.
    + intros p1 o' p2 Q k b. destruct p1 as [|x p1].
      * cbn in Q. injection Q as <- <-. cbn [length nth firstn last_stored]. split; [intros Qo Rr; now apply (A2 k b)|intros real Qo; now apply (A3 k real)].
      * cbn in Q. injection Q as <- Q. cbn [length nth firstn]. rewrite last_stored_cons, <- upd1_at. exact (B2 p1 o' p2 Q k b).
Qed.

Lemma empty_fok : forall S, fok S (empty_disk, new_cache).
Proof. intros S k b [L|L] F; contradiction. Qed.
Lemma no_death_safe : forall ops w, Forall no_death ops -> safe_deaths w ops.
Proof.
  induction ops as [|o ops IH]; intros w H; [exact I|]. inversion H as [|? ? H1 H2]; subst. cbn [safe_deaths]. split; [|now apply IH]. destruct o; try exact I; contradiction.
Qed.

(** ** A session *)
Definition sok (c : cache) : Prop :=
  (forall k, In k (c_new c) -> In k (c_index c)) /\ (forall k, In k (c_index c) -> In k (c_old c) \/ In k (c_new c)).
Lemma step_session : forall o d c d' c' r, in_session o -> sok c -> cstep (d, c) o = ((d', c'), r) ->
  d_index d' = d_index d /\ c_old c' = c_old c /\ sok c' /\
  (forall k, In k (c_index c') <-> In k (c_index c) \/ stores o k) /\
  (forall k, In k (c_new c') <-> In k (c_new c) \/ stores o k \/ (In k (c_index c) /\ asks o k)) /\
  (forall k, ~ stores o k -> d_files d' k = d_files d k).
Proof.
  intros o d c d' c' r Hs [S1 S2] E.
  assert (ST : forall d c k v, sok c -> let '(d', c') := cache_set d c k v in
    d_index d' = d_index d /\ c_old c' = c_old c /\ sok c' /\ (forall x, In x (c_index c') <-> In x (c_index c) \/ k = x) /\
    (forall x, In x (c_new c') <-> In x (c_new c) \/ k = x) /\ (forall x, k <> x -> d_files d' x = d_files d x)).
  { clear. intros d c k v [S1 S2]. unfold cache_set. cbn [d_index c_old c_index c_new d_files].
    assert (IX : forall x, In x (if kmem k (c_index c) then c_index c else k :: c_index c) <-> In x (c_index c) \/ k = x).
    { intro x. destruct (kmem k (c_index c)) eqn:K; [|cbn; tauto]. apply kmem_In in K. split; [auto|]. intros [X| <-]; assumption. }
    split; [reflexivity|]. split; [reflexivity|]. split; [|split; [exact IX|split; [intro x; cbn; tauto|intros x N; apply kset_neq; congruence]]].
    split; cbn [c_new c_index c_old].
    - intros x [<-|X]; apply IX; [now right|left; now apply S1].
    - intros x X. apply IX in X as [X| <-]; [|right; now left]. destruct (S2 x X); [now left|right; now right]. }
  assert (GT : forall k c' r, cache_get d c k = (c', r) -> c_old c' = c_old c /\ sok c' /\ c_index c' = c_index c /\
     (forall x, In x (c_new c') <-> In x (c_new c) \/ (In x (c_index c) /\ k = x))).
  { intros k c1 r1 G. unfold cache_get in G. destruct (kmem k (c_index c)) eqn:K; apply pair_inj in G as [<- <-]; cbn [c_old c_index c_new].
    - apply kmem_In in K. split; [reflexivity|]. split; [|split; [reflexivity|]].
      + split; cbn [c_new c_index c_old]; [intros x [<-|X]; auto|intros x X; destruct (S2 x X); [now left|right; now right]].
      + intro x. cbn. split; [intros [<-|X]; auto|intros [X|[X <-]]; auto].
    - apply kmem_no in K. split; [reflexivity|]. split; [split; assumption|]. split; [reflexivity|]. intro x. split; [auto|]. intros [X|[X <-]]; [exact X|contradiction]. }
  destruct o as [clean|k|k v|k real| | |k part|gone|]; cbn [in_session] in Hs; try contradiction; cbn [cstep] in E; cbn [stores asks].
  - destruct (cache_get d c k) as [c1 r1] eqn:G. apply pair_inj in E as [E _]. apply pair_inj in E as [<- <-].
    destruct (GT k c1 r1 G) as (G1 & G2 & G3 & G4). split; [reflexivity|]. split; [exact G1|]. split; [exact G2|]. rewrite G3.
    split; [intro x; tauto|]. split; [intro x; rewrite G4; tauto|reflexivity].
  - pose proof (ST d c k v (conj S1 S2)) as T. destruct (cache_set d c k v) as [d1 c1]. apply pair_inj in E as [E _]. apply pair_inj in E as [<- <-].
    destruct T as (T1 & T2 & T3 & T4 & T5 & T6). split; [exact T1|]. split; [exact T2|]. split; [exact T3|]. split; [exact T4|]. split; [intro x; rewrite T5; tauto|exact T6].
  - unfold cached_data in E. destruct (cache_get d c k) as [c1 [v|]] eqn:G; destruct (GT k c1 _ G) as (G1 & G2 & G3 & G4).
    + apply pair_inj in E as [E _]. apply pair_inj in E as [<- <-].
      assert (Ki : In k (c_index c)) by (unfold cache_get in G; destruct (kmem k (c_index c)) eqn:K; [now apply kmem_In|discriminate]).
      split; [reflexivity|]. split; [exact G1|]. split; [exact G2|]. rewrite G3. split; [intro x; split; [tauto|intros [X| <-]; assumption]|].
      split; [|reflexivity]. intro x. rewrite G4. split; [tauto|]. intros [X|[<-|[_ []]]]; auto.
    + pose proof (ST d c1 k real G2) as T. destruct (cache_set d c1 k real) as [d1 c2]. apply pair_inj in E as [E _]. apply pair_inj in E as [<- <-].
      destruct T as (T1 & T2 & T3 & T4 & T5 & T6). split; [exact T1|]. split; [congruence|]. split; [exact T3|]. rewrite G3 in T4. split; [exact T4|].
      split; [|exact T6]. intro x. rewrite T5, G4. tauto.
Qed.

Lemma session_spec : forall ops d c d' c' rs, Forall in_session ops -> sok c -> crun (d, c) ops = ((d', c'), rs) ->
  d_index d' = d_index d /\ c_old c' = c_old c /\ sok c' /\
  (forall k, In k (c_new c') <-> In k (c_new c) \/ (exists o, In o ops /\ stores o k) \/ (In k (c_index c) /\ exists o, In o ops /\ asks o k)) /\
  (forall k, (forall o, In o ops -> ~ stores o k) -> d_files d' k = d_files d k).
Proof.
  induction ops as [|o ops IH]; intros d c d' c' rs Hs S E; cbn [crun] in E.
  - apply pair_inj in E as [E _]. apply pair_inj in E as [<- <-]. split; [reflexivity|]. split; [reflexivity|]. split; [exact S|]. split; [|reflexivity].
    intro k. split; [auto|]. intros [X|[(o & [] & _)|(_ & o & [] & _)]]. exact X.
  - inversion Hs as [|? ? H1 H2]; subst. destruct (cstep (d, c) o) as [[d1 c1] r] eqn:C. destruct (crun (d1, c1) ops) as [[d2 c2] rs2] eqn:R.
    apply pair_inj in E as [E _]. apply pair_inj in E as [<- <-].
    destruct (step_session o d c d1 c1 r H1 S C) as (A1 & A2 & A3 & A4 & A5 & A6).
    destruct (IH d1 c1 d2 c2 rs2 H2 A3 R) as (B1 & B2 & B3 & B4 & B5).
    split; [congruence|]. split; [congruence|]. split; [exact B3|]. split.
    + intro k. rewrite B4, A5, A4. split.
      * intros [[X|[X|(X1 & X2)]]|[(o' & O1 & O2)|([X|X] & o' & O1 & O2)]].
        -- now left.
        -- right. left. exists o. split; [now left|exact X].
        -- right. right. split; [exact X1|]. exists o. split; [now left|exact X2].
        -- right. left. exists o'. split; [now right|exact O2].
        -- right. right. split; [exact X|]. exists o'. split; [now right|exact O2].
        -- right. left. exists o. split; [now left|exact X].
      * intros [X|[(o' & [<-|O1] & O2)|(X & o' & [<-|O1] & O2)]].
        -- left. now left.
        -- left. right. now left.
        -- right. left. exists o'. auto.
        -- left. right. right. auto.
        -- right. right. split; [now left|]. exists o'. auto.
    + intros k N. rewrite B5; [apply A6; apply N; now left|]. intros o' O. apply N. now right.
Qed.

Lemma saved_spec : forall d clean ops d' c' rs, Forall in_session ops ->
  crun (d, cache_load d clean) (ops ++ [OSave]) = ((d', c'), rs) ->
  let used k := (exists o, In o ops /\ stores o k) \/ (clean = false /\ listed d k /\ exists o, In o ops /\ asks o k) in
  (forall k, listed d' k <-> used k) /\
  (forall k, listed d k -> ~ used k -> d_files d' k = None) /\
  (forall k, ~ listed d k -> ~ used k -> d_files d' k = d_files d k).
Proof.
  intros d clean ops d' c' rs Hs E used.
  assert (RA : forall a b w, crun w (a ++ b) = let '(w1, r1) := crun w a in let '(w2, r2) := crun w1 b in (w2, r1 ++ r2)).
  { induction a as [|o a IH]; intros b w; cbn [app crun]; [destruct (crun w b); reflexivity|]. destruct (cstep w o) as [w1 r]. rewrite IH.
    destruct (crun w1 a) as [w2 r1]. destruct (crun w2 b). reflexivity. }
  rewrite RA in E. destruct (crun (d, cache_load d clean) ops) as [[d1 c1] r1] eqn:R. cbn [crun cstep] in E.
  apply pair_inj in E as [E _]. unfold cache_save in E. apply pair_inj in E as [<- <-].
  assert (LD : forall k, listed d k <-> In k (c_old (cache_load d clean))).
  { intro k. unfold listed, cache_load. cbn. destruct (d_index d); [tauto|cbn; tauto]. }
  destruct (session_spec ops d (cache_load d clean) d1 c1 r1 Hs) as (B1 & B2 & B3 & B4 & B5); [|exact R|].
  { split; [intros k []|]. unfold cache_load. cbn. destruct clean; [intros k []|]. now left. }
  assert (U : forall k, In k (c_new c1) <-> used k).
  { intro k. rewrite B4. unfold used. rewrite LD. unfold cache_load. cbn [c_new c_index c_old]. destruct clean; cbn [In].
    - split; [intros [[]|[X|([] & _)]]; now left|]. intros [X|(X & _)]; [auto|discriminate].
    - split; [intros [[]|[X|X]]; [now left|right; split; [reflexivity|exact X]]|]. intros [X|(_ & X)]; auto. }
  destruct B3 as [B3a B3b].
  assert (SK : forall k, stale c1 k = true <-> listed d k /\ ~ used k).
  { intro k. unfold stale. rewrite andb_true_iff, negb_true_iff, kmem_In, kmem_no, U, B2, LD. tauto. }
  split; [|split].
  - intro k. unfold listed. cbn [d_index]. rewrite filter_In, negb_true_iff, <- U. split.
    + intros [X Y]. destruct (B3b k X) as [Z|Z]; [|exact Z]. apply andb_false_iff in Y as [Y|Y].
      * apply kmem_no in Y. contradiction.
      * apply negb_false_iff, kmem_In in Y. exact Y.
    + intro X. split; [now apply B3a|]. unfold stale. apply andb_false_iff. right. apply negb_false_iff. now apply kmem_In.
  - intros k L N. cbn [d_files]. now rewrite (proj2 (SK k) (conj L N)).
  - intros k L N. cbn [d_files]. assert (X : stale c1 k = false) by (destruct (stale c1 k) eqn:X; [apply SK in X; tauto|reflexivity]). rewrite X.
    apply B5. intros o O Q. apply N. left. eauto.
Qed.


(** What a completed session stored is there for the next one. *)
Lemma session_files : forall ops w w' rs, Forall in_session ops -> crun w ops = (w', rs) ->
  forall k, d_files (fst w') k = last_stored ops rs k (d_files (fst w) k).
Proof.
  induction ops as [|o ops IH]; intros [d c] w' rs Hs E k; cbn [crun] in E.
  - apply pair_inj in E as [<- <-]. reflexivity.
  - inversion Hs as [|? ? H1 H2]; subst. destruct (cstep (d, c) o) as [w1 r] eqn:C. destruct (crun w1 ops) as [w2 rs2] eqn:R.
    apply pair_inj in E as [<- <-]. rewrite (IH w1 w2 rs2 H2 R k), last_stored_cons. f_equal. clear IH R. cbn [fst].
    destruct o as [clean|x|x v|x real| | |x part|gone|]; cbn [in_session] in H1; try contradiction; cbn [cstep] in C; cbn [upd1].
    + destruct (cache_get d c x). apply pair_inj in C as [<- _]. reflexivity.
    + apply pair_inj in C as [<- _]. unfold cache_set. cbn [fst d_files]. unfold kset. rewrite Nat.eqb_sym. destruct (Nat.eqb x k); reflexivity.
    + unfold cached_data in C. destruct (cache_get d c x) as [c1 [v|]] eqn:G.
      * apply pair_inj in C as [<- <-]. cbn [fst]. destruct (Nat.eqb x k) eqn:Q; [|reflexivity]. apply Nat.eqb_eq in Q. subst x.
        unfold cache_get in G. destruct (kmem k (c_index c)); [|discriminate]. now apply pair_inj in G as [_ ->].
      * unfold cache_set in C. apply pair_inj in C as [<- <-]. cbn [fst d_files]. unfold kset. rewrite Nat.eqb_sym. destruct (Nat.eqb x k); reflexivity.
Qed.
Lemma hit_spec : forall d clean ops w' rs k, Forall in_session ops ->
  crun (d, cache_load d clean) (ops ++ [OSave; ODie; OLoad false; OGet k]) = (w', rs) ->
  (exists o, In o ops /\ stores o k) -> nth (length ops + 3) rs None = last_stored ops rs k None.
Proof.
  intros d clean ops w' rs k Hs E U.
  assert (RA : forall a b w, crun w (a ++ b) = let '(w1, r1) := crun w a in let '(w2, r2) := crun w1 b in (w2, r1 ++ r2)).
  { induction a as [|o a IH]; intros b w; cbn [app crun]; [destruct (crun w b); reflexivity|]. destruct (cstep w o) as [w1 r]. rewrite IH.
    destruct (crun w1 a) as [w2 r1]. destruct (crun w2 b). reflexivity. }
  assert (LS : forall ops rs rs' k acc, length rs = length ops -> last_stored ops (rs ++ rs') k acc = last_stored ops rs k acc).
  { clear. induction ops as [|o ops IH]; intros rs rs' k acc L; [reflexivity|]. destruct rs as [|r rs]; [discriminate|].
    cbn [app]. rewrite !last_stored_cons. apply IH. cbn in L. lia. }
  assert (LN : forall ops w w' rs, crun w ops = (w', rs) -> length rs = length ops).
  { clear. induction ops as [|o ops IH]; intros w w' rs E; cbn [crun] in E; [apply pair_inj in E as [_ <-]; reflexivity|].
    destruct (cstep w o) as [w1 r]. destruct (crun w1 ops) as [w2 rs2] eqn:R. apply pair_inj in E as [_ <-]. cbn. f_equal. now apply (IH w1 w2). }
  assert (LA : forall ops w w' rs, Forall in_session ops -> crun w ops = (w', rs) -> (exists o, In o ops /\ stores o k) -> forall a b, last_stored ops rs k a = last_stored ops rs k b).
  { clear. induction ops as [|o ops IH]; intros w w' rs Hs E (o' & O & St) a b; [contradiction|]. cbn [crun] in E.
    inversion Hs as [|? ? H1 H2]; subst.
    destruct (cstep w o) as [w1 r]. destruct (crun w1 ops) as [w2 rs2] eqn:R. apply pair_inj in E as [_ <-]. rewrite !last_stored_cons.
    destruct O as [->|O].
    - f_equal. destruct o'; cbn in *; try contradiction; subst; now rewrite Nat.eqb_refl.
    - apply (IH w1 w2 rs2 H2 R). eauto. }
  rewrite RA in E. destruct (crun (d, cache_load d clean) ops) as [[d1 c1] r1] eqn:R.
  destruct (crun (d1, c1) [OSave; ODie; OLoad false; OGet k]) as [w2 r2] eqn:R2. apply pair_inj in E as [<- <-].
  pose proof (LN _ _ _ _ R) as L1. rewrite LS by exact L1. rewrite app_nth2 by lia. replace (length ops + 3 - length r1)%nat with 3%nat by lia.
  cbn [crun cstep] in R2.
  destruct (saved_spec d clean ops (fst (cache_save d1 c1)) (snd (cache_save d1 c1)) (r1 ++ [None]) Hs) as (A1 & _).
  { rewrite RA, R. cbn [crun cstep]. destruct (cache_save d1 c1). reflexivity. }
  specialize (A1 k). destruct A1 as [_ A1]. specialize (A1 (or_introl U)).
  destruct (cache_save d1 c1) as [d2 c2] eqn:Sv. cbn [fst snd] in A1. cbn [crun cstep] in R2.
  unfold cache_get in R2. unfold cache_load in R2. cbn [c_index] in R2.
  assert (K : kmem k (match d_index d2 with Some l => l | None => [] end) = true).
  { apply kmem_In. unfold listed in A1. destruct (d_index d2); [exact A1|contradiction]. }
  rewrite K in R2. apply pair_inj in R2 as [_ <-]. cbn [nth].
  assert (F : d_files d2 k = d_files d1 k).
  { unfold cache_save in Sv. apply pair_inj in Sv as [<- _]. cbn [d_files d_index] in *.
    assert (X : stale c1 k = false); [|now rewrite X]. unfold listed in A1. cbn [d_index] in A1. apply filter_In in A1 as [_ A1]. now apply negb_true_iff in A1. }
  rewrite F. pose proof (session_files ops _ _ _ Hs R k) as Q. cbn [fst] in Q. rewrite Q. now apply (LA ops _ _ _ Hs R U).
Qed.
