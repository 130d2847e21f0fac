From Coq Require Import ZArith List Bool Lia String Logic.FinFun.
From Verif Require Import Base BaseFacts RecordsModel IdMapModel SpecIdMap.
Import ListNotations.
Open Scope Z_scope.

(** ** Dictionaries *)
Section D.
  Context {K V : Type} (eqb : K -> K -> bool).
  Hypothesis Heq : forall a b, eqb a b = true <-> a = b.
  Lemma gset : forall (l : list (K * V)) k v x, dict_get eqb (dict_set eqb l k v) x = if eqb x k then Some v else dict_get eqb l x.
  Proof.
    induction l as [|[k' v'] l IH]; intros k v x; cbn [dict_set dict_get]; [reflexivity|].
    destruct (eqb k k') eqn:E; cbn [dict_get].
    - apply Heq in E. subst k'. destruct (eqb x k); reflexivity.
    - destruct (eqb x k') eqn:E2; [|apply IH]. destruct (eqb x k) eqn:E3; [|reflexivity].
      apply Heq in E2, E3. subst. rewrite (proj2 (Heq _ _) eq_refl) in E. discriminate.
  Qed.
  Lemma gset_eq : forall (l : list (K * V)) k v, dict_get eqb (dict_set eqb l k v) k = Some v.
  Proof. intros. rewrite gset. now rewrite (proj2 (Heq k k) eq_refl). Qed.
  Lemma gset_neq : forall (l : list (K * V)) k v x, x <> k -> dict_get eqb (dict_set eqb l k v) x = dict_get eqb l x.
  Proof. intros. rewrite gset. destruct (eqb x k) eqn:E; [apply Heq in E; contradiction|reflexivity]. Qed.
  Lemma gIn : forall (l : list (K * V)) k v, dict_get eqb l k = Some v -> In (k, v) l.
  Proof.
    induction l as [|[k' v'] l IH]; intros k v H; [discriminate|]. cbn in H. destruct (eqb k k') eqn:E; [|right; now apply IH].
    apply Heq in E. apply some_inj in H. subst. now left.
  Qed.
  Lemma Ing : forall (l : list (K * V)) k v, NoDup (map fst l) -> In (k, v) l -> dict_get eqb l k = Some v.
  Proof.
    induction l as [|[k' v'] l IH]; intros k v N H; [contradiction|]. cbn in *. inversion N as [|? ? N1 N2]; subst.
    destruct H as [H|H].
    - apply pair_inj in H as [-> ->]. now rewrite (proj2 (Heq k k) eq_refl).
    - destruct (eqb k k') eqn:E; [|now apply IH]. apply Heq in E. subst. exfalso. apply N1. apply (in_map fst) in H. exact H.
  Qed.
  Lemma gNone : forall (l : list (K * V)) k, dict_get eqb l k = None <-> ~ In k (map fst l).
  Proof.
    induction l as [|[k' v'] l IH]; intro k; cbn; [tauto|]. destruct (eqb k k') eqn:E.
    - apply Heq in E. subst. split; [discriminate|]. intro H. exfalso. apply H. now left.
    - rewrite IH. split; intros H; [intros [->|X]; [rewrite (proj2 (Heq k k) eq_refl) in E; discriminate|tauto]|tauto].
  Qed.
  Lemma set_keys : forall (l : list (K * V)) k v x, In x (map fst (dict_set eqb l k v)) <-> x = k \/ In x (map fst l).
  Proof.
    induction l as [|[k' v'] l IH]; intros k v x; cbn [dict_set map fst In]; [intuition|].
    destruct (eqb k k') eqn:E; cbn [map fst In].
    - apply Heq in E. subst. intuition.
    - rewrite IH. intuition.
  Qed.
  Lemma set_nodup : forall (l : list (K * V)) k v, NoDup (map fst l) -> NoDup (map fst (dict_set eqb l k v)).
  Proof.
    induction l as [|[k' v'] l IH]; intros k v N; cbn [dict_set map fst]; [repeat constructor; auto|].
    cbn in N. inversion N as [|? ? N1 N2]; subst. destruct (eqb k k') eqn:E; cbn [map fst]; constructor; auto.
    rewrite set_keys. intros [->|X]; [rewrite (proj2 (Heq k k) eq_refl) in E; discriminate|tauto].
  Qed.
End D.

Lemma skey_eqb_ok : forall a b, skey_eqb a b = true <-> a = b.
Proof.
  intros [f n] [g m]. unfold skey_eqb. cbn. rewrite andb_true_iff, Z.eqb_eq, String.eqb_eq. split; [intros [-> ->]; reflexivity|].
  intro H. apply pair_inj in H. exact H.
Qed.
Lemma idval_eqb_ok : forall a b, idval_eqb a b = true <-> a = b.
Proof.
  intros [x|x] [y|y]; cbn; rewrite ?Z.eqb_eq, ?String.eqb_eq; split; try discriminate; congruence.
Qed.
Lemma fkey_eqb_ok : forall a b, fkey_eqb a b = true <-> a = b.
Proof.
  intros [f n] [g m]. unfold fkey_eqb. cbn. rewrite andb_true_iff, Z.eqb_eq, idval_eqb_ok. split; [intros [-> ->]; reflexivity|].
  intro H. apply pair_inj in H. exact H.
Qed.
Lemma fkey_in_ok : forall k l, fkey_in k l = true <-> In k l.
Proof.
  intros k l. unfold fkey_in. rewrite existsb_exists. split.
  - intros (x & X & E). apply fkey_eqb_ok in E. now subst.
  - intro H. exists k. split; [exact H|]. now apply fkey_eqb_ok.
Qed.
Lemma fkey_in_no : forall k l, fkey_in k l = false <-> ~ In k l.
Proof. intros k l. rewrite <- fkey_in_ok. destruct (fkey_in k l); split; congruence. Qed.

(** ** Features *)
Lemma index_of_spec : forall l n i, index_of n l = Some i -> 0 <= i < Z.of_nat (List.length l) /\ nth (Z.to_nat i) l ""%string = n.
Proof.
  induction l as [|x l IH]; intros n i H; [discriminate|]. cbn [index_of] in H. destruct (String.eqb n x) eqn:E.
  - apply some_inj in H. subst i. apply String.eqb_eq in E. subst. cbn. split; [lia|reflexivity].
  - destruct (index_of n l) as [j|] eqn:J; [|discriminate]. apply some_inj in H. destruct (IH n j J) as [R Q]. subst i. cbn [List.length].
    split; [lia|]. replace (Z.to_nat (j + 1)) with (S (Z.to_nat j)) by lia. exact Q.
Qed.
Lemma from_name_spec : forall n f, from_name n = Some f -> 0 <= f <= 20 /\ feature_name f = n.
Proof.
  intros n f H. unfold from_name in H. apply index_of_spec in H as [R Q].
  change (Z.of_nat (List.length feature_names)) with 21 in R. split; [lia|exact Q].
Qed.
Lemma from_name_known : forall n, In n feature_names -> exists f, from_name n = Some f.
Proof.
  unfold from_name. induction feature_names as [|x l IH]; intros n H; [contradiction|]. cbn. destruct (String.eqb n x) eqn:E; [eauto|].
  destruct H as [->|H]; [rewrite String.eqb_refl in E; discriminate|]. destruct (IH n H) as [f F]. rewrite F. eauto.
Qed.
Lemma from_name_of : forall f, 0 <= f <= 20 -> from_name (feature_name f) = Some f.
Proof.
  intros f H.
  assert (A : forallb (fun k => match from_name (feature_name (Z.of_nat k)) with Some g => g =? Z.of_nat k | None => false end) (seq 0 21) = true)
    by (vm_compute; reflexivity).
  rewrite forallb_forall in A. specialize (A (Z.to_nat f)). rewrite Z2Nat.id in A by lia.
  assert (I : In (Z.to_nat f) (seq 0 21)) by (apply in_seq; lia). specialize (A I).
  destruct (from_name (feature_name f)); [|discriminate]. apply Z.eqb_eq in A. now subst.
Qed.
Lemma feature_name_inj : forall f g, 0 <= f <= 20 -> 0 <= g <= 20 -> feature_name f = feature_name g -> f = g.
Proof.
  intros f g F G E. apply from_name_of in F, G. rewrite E, G in F. now apply some_inj in F.
Qed.

(** ** Loading *)
Notation iget m := (dict_get skey_eqb m).
Notation nget m := (dict_get Z.eqb m).
Definition bounded (index : list (skey * Z)) (next : list (Z * Z)) : Prop :=
  forall f n i, iget index (f, n) = Some i -> exists x, nget next f = Some x /\ i < x.
Definition only_names (l : list fkey) : Prop := forall f n, ~ In (f, VInt n) l.
Definition known_keys (index : list (skey * Z)) : Prop := forall f n i, iget index (f, n) = Some i -> 0 <= f <= 20.

Lemma load_names : forall f names index next used, 0 <= f <= 20 -> NoDup (map fst names) -> bounded index next -> only_names used -> NoDup (map fst index) -> known_keys index ->
  let '(index', next', used') := fold_left (load_name f) names (index, next, used) in
  bounded index' next' /\ only_names used' /\ NoDup (map fst index') /\ known_keys index' /\
  (forall g n i, iget index' (g, n) = Some i <-> (g = f /\ In (n, i) names) \/ (~ (g = f /\ In n (map fst names)) /\ iget index (g, n) = Some i)).
Proof.
  intros f. induction names as [|[n0 i0] names IH]; intros index next used Hf N B O ND KK; cbn [fold_left].
  - split; [exact B|]. split; [exact O|]. split; [exact ND|]. split; [exact KK|]. intros g n i. cbn. tauto.
  - cbn [map fst] in N. inversion N as [|? ? N1 N2]; subst. unfold load_name at 2. cbn [fst snd].
    set (index1 := dict_set skey_eqb index (f, n0) i0).
    match goal with |- context [fold_left _ _ (_, ?x, ?u)] => set (next1 := x); set (used1 := u) end.
    specialize (IH index1 next1 used1 Hf N2).
    assert (B1 : bounded index1 next1).
    { intros g n i. unfold index1, next1. rewrite gset by apply skey_eqb_ok. destruct (skey_eqb (g, n) (f, n0)) eqn:E.
      - apply skey_eqb_ok in E. apply pair_inj in E as [-> ->]. intro H. apply some_inj in H. subst.
        rewrite (gset_eq Z.eqb Z.eqb_eq). eexists. split; [reflexivity|lia].
      - intro H. destruct (B g n i H) as (x & X & L). rewrite (gset Z.eqb Z.eqb_eq). destruct (g =? f) eqn:G; [|eauto].
        apply Z.eqb_eq in G. subst g. rewrite X. eexists. split; [reflexivity|lia]. }
    assert (O1 : only_names used1) by (intros g n [H|H]; [discriminate|now apply (O g n)]).
    assert (KK1 : known_keys index1).
    { intros g n i. unfold index1. rewrite gset by apply skey_eqb_ok. destruct (skey_eqb (g, n) (f, n0)) eqn:E; [|apply KK].
      apply skey_eqb_ok in E. apply pair_inj in E as [-> _]. auto. }
    specialize (IH B1 O1 (set_nodup skey_eqb skey_eqb_ok _ _ _ ND) KK1).
    match goal with |- context [fold_left ?a ?b ?c] => set (FL := fold_left a b c) in *; change (fold_left (load_name f) names (index1, next1, used1)) with FL in IH end.
    destruct FL as [[index' next'] used'].
    destruct IH as (IB & IO & IN & IK & IG). split; [exact IB|]. split; [exact IO|]. split; [exact IN|]. split; [exact IK|].
    intros g n i. rewrite IG. unfold index1. rewrite gset by apply skey_eqb_ok. cbn [map fst In].
    destruct (skey_eqb (g, n) (f, n0)) eqn:E.
    + apply skey_eqb_ok in E. apply pair_inj in E as [-> ->]. split.
      * intros [[_ H]|[_ H]]; [left; auto|]. apply some_inj in H. subst. left. auto.
      * intros [[_ [H|H]]|[H _]].
        -- apply pair_inj in H as [_ ->]. right. split; [intros [_ X]; contradiction|reflexivity].
        -- exfalso. apply N1. apply (in_map fst) in H. exact H.
        -- exfalso. apply H. auto.
    + assert (E' : ~ (g = f /\ n = n0)).
      { intros [-> ->]. rewrite (proj2 (skey_eqb_ok _ _) eq_refl) in E. discriminate. }
      split.
      * intros [[-> H]|[H1 H2]]; [left; auto|]. right. split; [|exact H2]. intros [-> [->|X]]; [now apply E'|now apply H1].
      * intros [[-> [H|H]]|[H1 H2]]; [apply pair_inj in H as [-> _]; exfalso; now apply E'|left; auto|].
        right. split; [|exact H2]. intros [-> X]. apply H1. auto.
Qed.

Lemma load_feats : forall l index next used, NoDup (map fst l) ->
  (forall fn names, In (fn, names) l -> In fn feature_names /\ NoDup (map fst names)) ->
  (forall g n i, iget index (g, n) = Some i -> ~ In (feature_name g) (map fst l)) ->
  bounded index next -> only_names used -> NoDup (map fst index) -> known_keys index ->
  exists index' next' used', load_features l (index, next, used) = Some (index', next', used') /\
  bounded index' next' /\ only_names used' /\ NoDup (map fst index') /\ known_keys index' /\
  (forall g n i, 0 <= g <= 20 -> (iget index' (g, n) = Some i <-> (exists names, In (feature_name g, names) l /\ In (n, i) names) \/ iget index (g, n) = Some i)).
Proof.
  induction l as [|[fn names] l IH]; intros index next used N H D B O ND KK; cbn [load_features].
  - exists index, next, used. split; [reflexivity|]. split; [exact B|]. split; [exact O|]. split; [exact ND|]. split; [exact KK|].
    intros g n i G. split; [auto|]. intros [(names & [] & _)|X]. exact X.
  - cbn [map fst] in N. inversion N as [|? ? N1 N2]; subst. destruct (H fn names (or_introl eq_refl)) as [K Nn].
    destruct (from_name_known fn K) as [f F]. rewrite F. cbn [bind]. destruct (from_name_spec fn f F) as [R E].
    pose proof (load_names f names index next used R Nn B O ND KK) as L.
    destruct (fold_left (load_name f) names (index, next, used)) as [[i1 n1] u1]. destruct L as (B1 & O1 & ND1 & KK1 & G1).
    destruct (IH i1 n1 u1 N2) as (index' & next' & used' & E' & B' & O' & ND' & KK' & G').
    + intros a b I. apply H. now right.
    + intros g n i I. apply G1 in I as [[-> I]|[I1 I2]]; [now rewrite E|]. apply D in I2. intro X. apply I2. now right.
    + exact B1.
    + exact O1.
    + exact ND1.
    + exact KK1.
    + exists index', next', used'. split; [exact E'|]. split; [exact B'|]. split; [exact O'|]. split; [exact ND'|]. split; [exact KK'|].
      intros g n i G. rewrite G' by exact G. rewrite G1. split.
      * intros [(nm & I1 & I2)|[[-> I]|[I1 I2]]].
        -- left. exists nm. split; [now right|exact I2].
        -- left. exists names. split; [left; now rewrite E|exact I].
        -- now right.
      * intros [(nm & [I1|I1] & I2)|I].
        -- apply pair_inj in I1 as [Q ->]. right. left. split; [|exact I2]. apply feature_name_inj; [exact G|exact R|congruence].
        -- left. eauto.
        -- right. right. split; [|exact I]. intros [-> X]. apply (D f n i I). left. now symmetry.
Qed.

Lemma load_good : forall d m, file_good d -> m_loaded m = false ->
  exists index next used, load (Some d) m = Some (mkMap true index next used (m_manual m)) /\
  bounded index next /\ only_names used /\ NoDup (map fst index) /\ known_keys index /\
  (forall f n i, 0 <= f <= 20 -> (iget index (f, n) = Some i <-> says d f n i)).
Proof.
  intros d m (G1 & G2 & G3) L. unfold load. rewrite L. cbn [bind]. rewrite G1. cbn [Z.eqb Pos.eqb].
  destruct (load_feats (j_index d) [] [] []) as (index & next & used & E & B & O & ND & KK & G).
  - exact G2.
  - intros fn names I. destruct (G3 fn names I) as (A1 & A2 & _). auto.
  - intros g n i X. discriminate.
  - intros g n i X. discriminate.
  - intros f n [].
  - constructor.
  - intros g n i X. discriminate.
  - rewrite E. cbn [bind]. exists index, next, used. split; [reflexivity|]. split; [exact B|]. split; [exact O|]. split; [exact ND|]. split; [exact KK|].
    intros f n i F. rewrite G by exact F. unfold says. split; [|auto]. intros [X|X]; [exact X|discriminate].
Qed.

(** ** Saving *)
Definition look (acc : list (string * list (string * Z))) (fn n : string) : option Z :=
  match dict_get String.eqb acc fn with Some d => dict_get String.eqb d n | None => None end.
Lemma save_look : forall l acc fn n, NoDup (map fst l) -> (forall e, In e l -> 0 <= fst (fst e) <= 20) ->
  look (fold_left save_entry l acc) fn n =
  match from_name fn with
  | Some f => match iget l (f, n) with Some v => Some v | None => look acc fn n end
  | None => look acc fn n
  end.
Proof.
  induction l as [|[[f0 n0] v0] l IH]; intros acc fn n N H; cbn [fold_left dict_get].
  - destruct (from_name fn); reflexivity.
  - cbn [map fst] in N. inversion N as [|? ? N1 N2]; subst. rewrite IH; [|exact N2|intros e I; apply H; now right]. clear IH.
    assert (R : 0 <= f0 <= 20) by (apply (H (f0, n0, v0)); now left).
    assert (A : look (save_entry acc (f0, n0, v0)) fn n = if String.eqb fn (feature_name f0) && String.eqb n n0 then Some v0 else look acc fn n).
    { unfold look, save_entry. rewrite (gset String.eqb String.eqb_eq). destruct (String.eqb fn (feature_name f0)) eqn:E; [|reflexivity].
      apply String.eqb_eq in E. subst fn. rewrite (gset String.eqb String.eqb_eq). cbn [andb].
      destruct (String.eqb n n0); [reflexivity|]. destruct (dict_get String.eqb acc (feature_name f0)); reflexivity. }
    rewrite A. destruct (from_name fn) as [f|] eqn:F.
    + destruct (from_name_spec fn f F) as [Rf E].
      assert (Q : skey_eqb (f, n) (f0, n0) = String.eqb fn (feature_name f0) && String.eqb n n0).
      { unfold skey_eqb. cbn [fst snd]. f_equal. apply eq_true_iff_eq. rewrite Z.eqb_eq, String.eqb_eq. split; [intros ->; now symmetry|].
        intro X. apply feature_name_inj; [exact Rf|exact R|congruence]. }
      rewrite Q. destruct (String.eqb fn (feature_name f0) && String.eqb n n0) eqn:B; [|reflexivity].
      apply skey_eqb_ok in Q. apply pair_inj in Q as [-> ->].
      assert (X : iget l (f0, n0) = None) by (apply (gNone skey_eqb skey_eqb_ok); exact N1). now rewrite X.
    + destruct (String.eqb fn (feature_name f0)) eqn:E; [|reflexivity]. apply String.eqb_eq in E. subst fn.
      rewrite from_name_of in F by exact R. discriminate.
Qed.
Definition acc_ok (acc : list (string * list (string * Z))) : Prop :=
  NoDup (map fst acc) /\ forall fn names, In (fn, names) acc -> In fn feature_names /\ NoDup (map fst names).
Lemma save_acc : forall l acc, (forall e, In e l -> 0 <= fst (fst e) <= 20) -> acc_ok acc -> acc_ok (fold_left save_entry l acc).
Proof.
  induction l as [|[[f0 n0] v0] l IH]; intros acc H A; [exact A|]. cbn [fold_left]. apply IH; [intros e I; apply H; now right|].
  assert (R : 0 <= f0 <= 20) by (apply (H (f0, n0, v0)); now left). destruct A as [A1 A2]. unfold save_entry. split.
  - now apply (set_nodup String.eqb String.eqb_eq).
  - intros fn names I.
    assert (ND : NoDup (map fst (dict_set String.eqb acc (feature_name f0)
       (dict_set String.eqb (match dict_get String.eqb acc (feature_name f0) with Some d => d | None => [] end) n0 v0)))) by (now apply (set_nodup String.eqb String.eqb_eq)).
    apply (Ing String.eqb String.eqb_eq _ _ _ ND) in I. rewrite (gset String.eqb String.eqb_eq) in I.
    destruct (String.eqb fn (feature_name f0)) eqn:E.
    + apply String.eqb_eq in E. apply some_inj in I. subst fn names. split.
      * pose proof (from_name_of f0 R) as X. unfold feature_name. apply nth_In. change (List.length feature_names) with 21%nat. lia.
      * apply (set_nodup String.eqb String.eqb_eq). destruct (dict_get String.eqb acc (feature_name f0)) as [d|] eqn:D; [|constructor].
        apply (gIn String.eqb String.eqb_eq) in D. now apply (A2 _ _ D).
    + apply (gIn String.eqb String.eqb_eq) in I. now apply A2.
Qed.

Lemma nodup_snd : forall (l : list (string * Z)), NoDup (map fst l) ->
  (forall a b i, In (a, i) l -> In (b, i) l -> a = b) -> NoDup (map snd l).
Proof.
  induction l as [|[a i] l IH]; intros N H; [constructor|]. cbn in *. inversion N as [|? ? N1 N2]; subst. constructor.
  - intro X. apply in_map_iff in X as ([b j] & E & X). cbn in E. subst j. apply N1.
    rewrite (H a b i); [|now left|now right]. apply (in_map fst) in X. exact X.
  - apply IH; [exact N2|]. intros x y k X Y. apply (H x y k); now right.
Qed.

Lemma save_good : forall file m, NoDup (map fst (m_index m)) -> known_keys (m_index m) -> m_index m <> [] ->
  (forall f a b i, iget (m_index m) (f, a) = Some i -> iget (m_index m) (f, b) = Some i -> a = b) ->
  exists d, save file m = Some d /\ file_good d /\
    (forall f n i, 0 <= f <= 20 -> (says d f n i <-> iget (m_index m) (f, n) = Some i)).
Proof.
  intros file m N K Ne I. unfold save. destruct (m_index m) as [|e0 l0] eqn:E; [contradiction|]. rewrite <- E in *. clear Ne e0 l0 E.
  assert (H : forall e, In e (m_index m) -> 0 <= fst (fst e) <= 20).
  { intros [[f n] v] X. apply (K f n v). now apply (Ing skey_eqb skey_eqb_ok). }
  eexists. split; [reflexivity|].
  set (acc := fold_left save_entry (m_index m) []).
  assert (A : acc_ok acc) by (apply save_acc; [exact H|split; [constructor|intros ? ? []]]).
  destruct A as [A1 A2].
  assert (S : forall f n i, 0 <= f <= 20 -> (says (mkJ 1 acc) f n i <-> iget (m_index m) (f, n) = Some i)).
  { intros f n i F. pose proof (save_look (m_index m) [] (feature_name f) n N H) as L. fold acc in L. rewrite from_name_of in L by exact F.
    unfold says. cbn [j_index]. split.
    - intros (names & I1 & I2). unfold look in L. rewrite (Ing String.eqb String.eqb_eq _ _ _ A1 I1) in L.
      rewrite (Ing String.eqb String.eqb_eq names n i) in L; [|now apply (A2 _ _ I1)|exact I2].
      destruct (iget (m_index m) (f, n)); [now symmetry|discriminate].
    - intro X. rewrite X in L. unfold look in L. destruct (dict_get String.eqb acc (feature_name f)) as [names|] eqn:D; [|discriminate].
      exists names. split; [now apply (gIn String.eqb String.eqb_eq)|now apply (gIn String.eqb String.eqb_eq)]. }
  split; [|exact S].
  split; [reflexivity|]. split; [exact A1|]. intros fn names X. destruct (A2 fn names X) as [B1 B2]. split; [exact B1|]. split; [exact B2|].
  apply nodup_snd; [exact B2|]. intros a b i Ia Ib. destruct (from_name_known fn B1) as [f F]. destruct (from_name_spec fn f F) as [R Q]. subst fn.
  apply (I f a b i); apply S; try exact R; exists names; auto.
Qed.

(** ** Free ids *)
Lemma first_free_ge : forall fuel manual f i, i <= first_free fuel manual f i.
Proof. induction fuel as [|fuel IH]; intros manual f i; cbn; [lia|]. destruct (fkey_in _ _); [specialize (IH manual f (i + 1)); lia|lia]. Qed.
Lemma first_free_block : forall fuel manual f i, In (f, VInt (first_free fuel manual f i)) manual ->
  forall k, (k <= fuel)%nat -> In (f, VInt (i + Z.of_nat k)) manual.
Proof.
  induction fuel as [|fuel IH]; intros manual f i H k Hk; cbn [first_free] in H.
  - replace k with O by lia. now rewrite Z.add_0_r.
  - destruct (fkey_in (f, VInt i) manual) eqn:E.
    + destruct k as [|k]; [rewrite Z.add_0_r; now apply fkey_in_ok|]. replace (i + Z.of_nat (S k)) with (i + 1 + Z.of_nat k) by lia. apply IH; [exact H|lia].
    + apply fkey_in_no in E. contradiction.
Qed.
Lemma first_free_free : forall manual f i, ~ In (f, VInt (first_free (S (List.length manual)) manual f i)) manual.
Proof.
  intros manual f i H. pose proof (first_free_block _ _ _ _ H) as B.
  set (l := map (fun k => (f, VInt (i + Z.of_nat k))) (seq 0 (S (List.length manual)))).
  assert (NoDup l).
  { unfold l. apply Injective_map_NoDup; [|apply seq_NoDup]. intros a b E. apply pair_inj in E as [_ E]. assert (i + Z.of_nat a = i + Z.of_nat b) by congruence. lia. }
  assert (I : incl l manual).
  { intros x X. unfold l in X. apply in_map_iff in X as (k & <- & K). apply B. apply in_seq in K. lia. }
  apply NoDup_incl_length in I; [|assumption]. unfold l in I. rewrite map_length, seq_length in I. exact (Nat.nle_succ_diag_l _ I).
Qed.

(** ** One map *)
Definition minv (d : jdata) (m : idmap) : Prop :=
  if m_loaded m then
    bounded (m_index m) (m_next m) /\ NoDup (map fst (m_index m)) /\ known_keys (m_index m) /\
    (forall f a b i, iget (m_index m) (f, a) = Some i -> iget (m_index m) (f, b) = Some i -> a = b) /\
    (forall f n i, 0 <= f <= 20 -> says d f n i -> iget (m_index m) (f, n) = Some i)
  else m_index m = [] /\ m_next m = [] /\ m_auto m = [].

Lemma says_inj : forall d f a b i, file_good d -> says d f a i -> says d f b i -> a = b.
Proof.
  intros d f a b i (_ & G2 & G3) (na & A1 & A2) (nb & B1 & B2).
  assert (na = nb).
  { pose proof (Ing String.eqb String.eqb_eq _ _ _ G2 A1) as X. rewrite (Ing String.eqb String.eqb_eq _ _ _ G2 B1) in X. now apply some_inj in X. }
  subst nb. destruct (G3 _ _ A1) as (_ & _ & N). clear - N A2 B2.
  induction na as [|[n j] na IH]; [contradiction|]. cbn in N. inversion N as [|? ? N1 N2]; subst.
  destruct A2 as [A|A], B2 as [B|B].
  - congruence.
  - apply pair_inj in A as [-> ->]. exfalso. apply N1. apply (in_map snd) in B. exact B.
  - apply pair_inj in B as [-> ->]. exfalso. apply N1. apply (in_map snd) in A. exact A.
  - now apply IH.
Qed.

Lemma load_minv : forall d m, file_good d -> minv d m -> exists m', load (Some d) m = Some m' /\ minv d m' /\ m_loaded m' = true /\
  m_manual m' = m_manual m /\ (m_loaded m = true -> m' = m) /\
  (m_loaded m = false -> (forall f n i, iget (m_index m') (f, n) = Some i -> says d f n i) /\ only_names (m_auto m')).
Proof.
  intros d m G I. destruct (m_loaded m) eqn:L.
  - exists m. unfold load. rewrite L. repeat (split; [now auto|]). discriminate.
  - destruct (load_good d m G L) as (index & next & used & E & B & O & ND & KK & S). eexists. split; [exact E|].
    assert (S' : forall f n i, iget index (f, n) = Some i -> says d f n i) by (intros f n i X; apply S; [now apply (KK f n i)|exact X]).
    split; [|split; [reflexivity|split; [reflexivity|split; [discriminate|]]]].
    + unfold minv. cbn. split; [exact B|]. split; [exact ND|]. split; [exact KK|]. split.
      * intros f a b i X Y. apply S' in X, Y. now apply (says_inj d f a b i).
      * intros f n i R X. now apply S.
    + intros _. cbn. auto.
Qed.

Lemma resolve_str : forall d m f s m' r, file_good d -> minv d m -> 0 <= f <= 20 -> resolve (Some d) m f (VStr s) = (m', r) ->
  exists i, r = Some i /\ minv d m' /\ m_loaded m' = true /\ iget (m_index m') (f, s) = Some i /\ m_manual m' = m_manual m /\
  exists m1, load (Some d) m = Some m1 /\
    (forall g n j, iget (m_index m1) (g, n) = Some j -> iget (m_index m') (g, n) = Some j) /\
    ((m' = m1) \/ (iget (m_index m1) (f, s) = None /\ ~ In (f, VInt i) (m_manual m) /\ m_auto m' = (f, VInt i) :: m_auto m1 /\
                   (forall g n j, iget (m_index m') (g, n) = Some j -> (g = f /\ n = s /\ j = i) \/ iget (m_index m1) (g, n) = Some j))).
Proof.
  intros d m f s m' r G I R H. destruct (load_minv d m G I) as (m1 & E & I1 & L1 & M1 & _). unfold resolve in H. rewrite E in H.
  destruct (iget (m_index m1) (f, s)) as [i|] eqn:X.
  - apply pair_inj in H as [<- <-]. exists i. split; [reflexivity|]. split; [exact I1|]. split; [exact L1|]. split; [exact X|]. split; [exact M1|].
    exists m1. auto.
  - cbv zeta in H. apply pair_inj in H as [<- <-]. set (i0 := match nget (m_next m1) f with Some i => i | None => min_id f end) in *.
    set (i := first_free (S (List.length (m_manual m1))) (m_manual m1) f i0) in *.
    assert (Ge : i0 <= i) by apply first_free_ge.
    assert (Fr : ~ In (f, VInt i) (m_manual m1)) by apply first_free_free.
    unfold minv in I1. rewrite L1 in I1. destruct I1 as (B & ND & KK & IJ & SS).
    assert (Lt : forall n j, iget (m_index m1) (f, n) = Some j -> j < i).
    { intros n j Y. destruct (B f n j Y) as (x & Xx & Lx). unfold i0 in Ge. rewrite Xx in Ge. lia. }
    exists i. split; [reflexivity|]. split; [|split; [exact L1|split; [apply (gset_eq skey_eqb skey_eqb_ok)|split; [exact M1|]]]].
    + unfold minv. cbn [m_loaded m_index m_next]. rewrite L1. split; [|split; [|split; [|split]]].
      * intros g n j Y. rewrite (gset skey_eqb skey_eqb_ok) in Y. rewrite (gset Z.eqb Z.eqb_eq). destruct (skey_eqb (g, n) (f, s)) eqn:Q.
        -- apply skey_eqb_ok in Q. apply pair_inj in Q as [-> ->]. apply some_inj in Y. subst j. rewrite Z.eqb_refl. eexists. split; [reflexivity|lia].
        -- destruct (g =? f) eqn:Gf; [|now apply (B g n)]. apply Z.eqb_eq in Gf. subst g. eexists. split; [reflexivity|]. specialize (Lt n j Y). lia.
      * now apply (set_nodup skey_eqb skey_eqb_ok).
      * intros g n j Y. rewrite (gset skey_eqb skey_eqb_ok) in Y. destruct (skey_eqb (g, n) (f, s)) eqn:Q; [|now apply (KK g n j)].
        apply skey_eqb_ok in Q. apply pair_inj in Q as [-> _]. exact R.
      * intros g a b j Ya Yb. rewrite (gset skey_eqb skey_eqb_ok) in Ya, Yb.
        destruct (skey_eqb (g, a) (f, s)) eqn:Qa, (skey_eqb (g, b) (f, s)) eqn:Qb.
        -- apply skey_eqb_ok in Qa, Qb. congruence.
        -- apply skey_eqb_ok in Qa. apply pair_inj in Qa as [-> ->]. apply some_inj in Ya. subst j. apply Lt in Yb. lia.
        -- apply skey_eqb_ok in Qb. apply pair_inj in Qb as [-> ->]. apply some_inj in Yb. subst j. apply Lt in Ya. lia.
        -- now apply (IJ g a b j).
      * intros g n j Rg Y. rewrite (gset skey_eqb skey_eqb_ok). apply SS in Y; [|exact Rg]. destruct (skey_eqb (g, n) (f, s)) eqn:Q; [|exact Y].
        apply skey_eqb_ok in Q. apply pair_inj in Q as [-> ->]. congruence.
    + exists m1. split; [exact E|]. split.
      * intros g n j Y. cbn [m_index]. rewrite (gset skey_eqb skey_eqb_ok). destruct (skey_eqb (g, n) (f, s)) eqn:Q; [|exact Y].
        apply skey_eqb_ok in Q. apply pair_inj in Q as [-> ->]. congruence.
      * right. split; [exact X|]. split; [now rewrite <- M1|]. split; [reflexivity|]. cbn [m_index]. intros g n j Y.
        rewrite (gset skey_eqb skey_eqb_ok) in Y. destruct (skey_eqb (g, n) (f, s)) eqn:Q; [|now right].
        apply skey_eqb_ok in Q. apply pair_inj in Q as [-> ->]. apply some_inj in Y. auto.
Qed.

Lemma resolve_int : forall d m f n m' r, file_good d -> minv d m -> resolve (Some d) m f (VInt n) = (m', r) ->
  exists m1, load (Some d) m = Some m1 /\ minv d m' /\ m_loaded m' = true /\ m_index m' = m_index m1 /\ m_auto m' = m_auto m1 /\
  incl (m_manual m) (m_manual m') /\
  ((r = Some n /\ In (f, VInt n) (m_manual m') /\ ~ In (f, VInt n) (m_auto m1)) \/ (r = None /\ In (f, VInt n) (m_auto m1))).
Proof.
  intros d m f n m' r G I H. destruct (load_minv d m G I) as (m1 & E & I1 & L1 & M1 & _). unfold resolve in H. rewrite E in H.
  exists m1. split; [exact E|]. destruct (fkey_in (f, VInt n) (m_auto m1)) eqn:X; apply pair_inj in H as [<- <-].
  - apply fkey_in_ok in X. split; [exact I1|]. split; [exact L1|]. split; [reflexivity|]. split; [reflexivity|]. split; [rewrite M1; apply incl_refl|]. auto.
  - apply fkey_in_no in X. split; [exact I1|]. split; [exact L1|]. split; [reflexivity|]. split; [reflexivity|]. cbn [m_manual].
    split; [rewrite M1; now apply incl_tl, incl_refl|]. left. split; [reflexivity|]. split; [now left|exact X].
Qed.
