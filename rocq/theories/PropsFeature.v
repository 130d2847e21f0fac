(** Property C90: features and their registration. *)
From Coq Require Import ZArith List Bool Lia.
From Coq Require String.
From Verif Require Import Base BaseFacts DecodeModel TreeModel FeatureModel.
Import String.StringSyntax.
Delimit Scope string_scope with string.
Import ListNotations.
Open Scope Z_scope.

(** ---- specification ---- *)

(** The arguments of a call of add_feature, and what a program that makes
    these calls has. *)
Record call := { c_id : Z; c_name : bytes; c_class : bytes; c_props : list (Z * (bytes * Z)); c_vars : list (bytes * variable); c_vehicle : bool }.
Definition add (globals : list (bytes * variable)) (r : registry) (c : call) : registry :=
  add_feature globals r (c_id c) (c_name c) (c_class c) (c_props c) (c_vars c) (c_vehicle c).
Definition session (globals : list (bytes * variable)) (calls : list call) : registry := fold_left (add globals) calls game.
(** [v] is what [l] says last about [k]. *)
Definition last_in {K V} (k : K) (l : list (K * V)) (v : V) : Prop := exists before after, l = before ++ (k, v) :: after /\ ~ In k (map fst after).
(** A variable reads [v_size] bits of the variable [v_var] from bit [v_start]. *)
Definition reads (v : variable) (key : Z * Z * Z) : Prop := key = (v_var v, v_start v, 2 ^ v_size v - 1).
Definition capital (c : Z) : Z := if (97 <=? c) && (c <=? 122) then c - 32 else c.

(** ---- proofs ---- *)

Definition ok_eqb {K} (eqb : K -> K -> bool) : Prop := forall a b, eqb a b = true <-> a = b.
Lemma Z_ok : ok_eqb Z.eqb. Proof. intros a b. apply Z.eqb_eq. Qed.
Lemma nat_ok : ok_eqb Nat.eqb. Proof. intros a b. apply Nat.eqb_eq. Qed.
Lemma name_ok : ok_eqb name_eqb.
Proof.
  intros a. induction a as [|x a IH]; intros [|y b]; cbn [name_eqb]; try (split; [discriminate|discriminate]); [tauto|].
  rewrite andb_true_iff, Z.eqb_eq, IH. split; [intros [-> ->]; reflexivity|intros E; injection E as -> ->; auto].
Qed.
Lemma key_ok : ok_eqb key_eqb.
Proof.
  intros [[a1 a2] a3] [[b1 b2] b3]. unfold key_eqb. rewrite !andb_true_iff, !Z.eqb_eq. split; [intros [[-> ->] ->]; reflexivity|intros E; injection E as -> -> ->; auto].
Qed.
Section Dict.
  Context {K V : Type} (eqb : K -> K -> bool) (OK : ok_eqb eqb).
  Lemma keyb_refl k : eqb k k = true. Proof. now apply OK. Qed.
  Lemma keyb_neq a b : a <> b -> eqb a b = false. Proof. intros N. destruct (eqb a b) eqn:E; [apply OK in E; congruence|reflexivity]. Qed.
  Lemma key_decide (a b : K) : a = b \/ a <> b. Proof. destruct (eqb a b) eqn:E; [left; now apply OK|right; intros ->; rewrite keyb_refl in E; discriminate]. Qed.
  Lemma get_put_same k (v : V) d : get eqb k (put eqb k v d) = Some v.
  Proof.
    induction d as [|[k' v'] d IH]; cbn [put get]; [now rewrite keyb_refl|]. destruct (key_decide k k') as [<- | N].
    - rewrite keyb_refl. cbn [get]. now rewrite keyb_refl.
    - rewrite (keyb_neq k k' N). cbn [get]. rewrite (keyb_neq k k' N). exact IH.
  Qed.
  Lemma get_put_other k k2 (v : V) d : k2 <> k -> get eqb k2 (put eqb k v d) = get eqb k2 d.
  Proof.
    intros N. induction d as [|[k' v'] d IH]; cbn [put get]; [now rewrite (keyb_neq k2 k N)|]. destruct (key_decide k k') as [<- | N'].
    - rewrite keyb_refl. cbn [get]. now rewrite (keyb_neq k2 k N).
    - rewrite (keyb_neq k k' N'). cbn [get]. rewrite IH. reflexivity.
  Qed.
  Lemma get_puts k (v : V) d : forall l, get eqb k (puts eqb d l) = Some v <-> last_in k l v \/ (~ In k (map fst l) /\ get eqb k d = Some v).
  Proof.
    induction l as [|[k' v'] l IH] using rev_ind.
    - unfold puts. cbn [fold_left map]. split; [auto|]. intros [(b & a & E & _) | [_ E]]; [destruct b; discriminate|exact E].
    - unfold puts in *. rewrite fold_left_app. cbn [fold_left fst snd]. rewrite map_app, in_app_iff. cbn [map fst In]. destruct (key_decide k k') as [<- | N].
      + rewrite get_put_same. split.
        * intros E. injection E as <-. left. exists l, []. cbn [map]. auto.
        * intros [(b & a & E & N) | [N _]]; [|exfalso; apply N; auto]. destruct a as [|x a] using rev_ind.
          { apply app_inj_tail in E as [_ E]. congruence. }
          { rewrite app_comm_cons, app_assoc in E. apply app_inj_tail in E as [_ E]. exfalso. apply N. rewrite map_app, in_app_iff. right. left. rewrite <- E. reflexivity. }
      + rewrite get_put_other by exact N. rewrite IH. split.
        * intros [(b & a & -> & NI) | [NI E]].
          { left. exists b, (a ++ [(k', v')]). split; [now rewrite <- app_assoc|]. rewrite map_app, in_app_iff. cbn. intros [|[|[]]]; [auto|congruence]. }
          { right. split; [intros [|[|[]]]; [auto|congruence]|exact E]. }
        * intros [(b & a & E & NI) | [NI E]]; [|right; split; [auto|exact E]]. left. destruct a as [|x a _] using rev_ind.
          { apply app_inj_tail in E as [_ E]. congruence. }
          { rewrite app_comm_cons, app_assoc in E. apply app_inj_tail in E as [-> E]. exists b, a. split; [reflexivity|]. intros I. apply NI. rewrite map_app, in_app_iff. auto. }
  Qed.
  Lemma get_in_dict k (v : V) d : get eqb k d = Some v -> In (k, v) d.
  Proof. induction d as [|[k' v'] d IH]; cbn [get]; [discriminate|]. destruct (key_decide k k') as [<- | N]; [rewrite keyb_refl; intros E; injection E as ->; now left|]. rewrite (keyb_neq k k' N). right. auto. Qed.
  Lemma get_some k d : In k (map fst d) -> exists v : V, get eqb k d = Some v.
  Proof. induction d as [|[k' v'] d IH]; cbn [get map In fst]; [intros []|]. destruct (key_decide k k') as [<- | N]; [rewrite keyb_refl; eauto|]. rewrite (keyb_neq k k' N). intros [|]; [congruence|auto]. Qed.
  Lemma put_keys k (v : V) d x : In x (map fst (put eqb k v d)) -> x = k \/ In x (map fst d).
  Proof. induction d as [|[k' v'] d IH]; cbn [put map fst In]; [intros [|[]]; auto|]. destruct (eqb k k'); cbn [map fst In]; intuition. Qed.
  Lemma put_nodup k (v : V) d : NoDup (map fst d) -> NoDup (map fst (put eqb k v d)).
  Proof.
    induction d as [|[k' v'] d IH]; cbn [put map fst]; [intros _; constructor; [intros []|constructor]|]. intros ND. inversion ND as [|? ? NI ND']; subst.
    destruct (key_decide k k') as [<- | N]; [rewrite keyb_refl; exact ND|]. rewrite (keyb_neq k k' N). cbn [map fst]. constructor; [|auto].
    intros I. apply put_keys in I as [|]; [congruence|auto].
  Qed.
  Lemma puts_nodup : forall (l : list (K * V)) d, NoDup (map fst d) -> NoDup (map fst (puts eqb d l)).
  Proof. unfold puts. induction l as [|e l IH]; intros d ND; cbn [fold_left]; [exact ND|]. apply IH, put_nodup, ND. Qed.
  Lemma in_dict_get k (v : V) d : NoDup (map fst d) -> In (k, v) d -> get eqb k d = Some v.
  Proof.
    induction d as [|[k' v'] d IH]; cbn [map fst get]; intros ND I; [destruct I|]. inversion ND as [|? ? NI ND']; subst. destruct I as [E | I].
    - injection E as -> ->. now rewrite keyb_refl.
    - rewrite keyb_neq; [auto|]. intros ->. apply NI. change k' with (fst (k', v)). now apply in_map.
  Qed.
End Dict.

Definition registry_ok (r : registry) : Prop :=
  Forall (fun o => (o < next r)%nat) (VEHICLES r) /\ (forall i f, Feature r i = Some f -> (f_obj f < next r)%nat /\ f_id f = i).
Lemma add_registry_ok G r c : registry_ok r -> registry_ok (add G r c).
Proof.
  intros [A B]. split.
  - unfold add, add_feature. cbn. assert (F : Forall (fun o => (o < S (next r))%nat) (VEHICLES r)) by (eapply Forall_impl; [|exact A]; cbn; lia).
    destruct (c_vehicle c); [constructor; [lia|exact F]|exact F].
  - intros i f. unfold Feature, add, add_feature. cbn. destruct (Z.eq_dec i (c_id c)) as [-> | N].
    + rewrite (get_put_same _ Z_ok). intros E. apply some_inj in E. subst f. cbn. lia.
    + rewrite (get_put_other _ Z_ok) by exact N. intros E. apply B in E. lia.
Qed.
Lemma adds_registry_ok G : forall cs r, registry_ok r -> registry_ok (fold_left (add G) cs r).
Proof. induction cs as [|c cs IH]; intros r H; [exact H|]. cbn [fold_left]. apply IH, add_registry_ok, H. Qed.
Lemma game_lookup i f : Feature game i = Some f -> 0 <= i <= 20 /\ f_id f = i /\ f_obj f = Z.to_nat i.
Proof.
  intros E. apply (get_in_dict _ Z_ok) in E. vm_compute in E. repeat (destruct E as [E | E]; [injection E as <- <-; cbn; lia|]). destruct E.
Qed.
Lemma game_registry_ok : registry_ok game.
Proof.
  split; [vm_compute; repeat constructor|]. intros i f E. destruct (game_lookup i f E) as (B & I & O). split; [|exact I]. rewrite O. change (next game) with 21%nat. lia.
Qed.

(** What a later registration leaves alone. *)
Lemma later_calls G : forall cs r, registry_ok r ->
  let r' := fold_left (add G) cs r in
  (next r <= next r')%nat /\
  (forall i, Forall (fun d => c_id d <> i) cs -> Feature r' i = Feature r i) /\
  (forall n, Forall (fun d => c_name d <> n) cs -> from_name r' n = from_name r n) /\
  (forall o, (o < next r)%nat -> get Nat.eqb o (PROPS r') = get Nat.eqb o (PROPS r) /\ get Nat.eqb o (PROP_DICT r') = get Nat.eqb o (PROP_DICT r) /\
     get Nat.eqb o (VARS r') = get Nat.eqb o (VARS r) /\ get Nat.eqb o (VARS_INV r') = get Nat.eqb o (VARS_INV r) /\ (In o (VEHICLES r') <-> In o (VEHICLES r))).
Proof.
  induction cs as [|c cs IH]; intros r H; cbv zeta; cbn [fold_left]; [repeat split; auto|].
  destruct (IH (add G r c) (add_registry_ok G r c H)) as (N & F & M & T). change (next (add G r c)) with (S (next r)) in *.
  split; [lia|]. split; [|split].
  - intros i D. inversion D; subst. rewrite F by assumption. unfold Feature, add, add_feature. cbn. apply (get_put_other _ Z_ok). congruence.
  - intros n D. inversion D; subst. rewrite M by assumption. unfold from_name, add, add_feature. cbn. apply (get_put_other _ name_ok). congruence.
  - intros o O. destruct (T o ltac:(lia)) as (A1 & A2 & A3 & A4 & A5). rewrite A1, A2, A3, A4. unfold add, add_feature. cbn [PROPS PROP_DICT VARS VARS_INV].
    repeat (split; [apply (get_put_other _ nat_ok); lia|]). rewrite A5. unfold add, add_feature. cbn [VEHICLES]. destruct (c_vehicle c); [|tauto].
    cbn [In]. intuition lia.
Qed.

(** C90: after any calls of add_feature, a feature is found by its id and by
    its name as it was added, as long as the id and the name are not used
    again, prints as its name in capitals, and has its own tables: its
    properties by id and by name, and its variables over the global ones. *)
Theorem C90_added : forall G before c after,
  let r := session G (before ++ c :: after) in
  exists f, (Forall (fun d => c_id d <> c_id c) after -> Feature r (c_id c) = Some f) /\
    (Forall (fun d => c_name d <> c_name c) after -> from_name r (c_name c) = Some f) /\
    f_id f = c_id c /\ f_name f = c_name c /\ f_class f = c_class c /\ feature_repr f = map capital (c_name c) /\
    (In (f_obj f) (VEHICLES r) <-> c_vehicle c = true) /\
    get Nat.eqb (f_obj f) (PROPS r) = Some (c_props c) /\
    (exists d, get Nat.eqb (f_obj f) (PROP_DICT r) = Some d /\
       forall n i s, get name_eqb n d = Some (i, s) <-> exists l m, c_props c = l ++ (i, (n, s)) :: m /\ ~ In n (map (fun e => fst (snd e)) m)) /\
    (exists d, get Nat.eqb (f_obj f) (VARS r) = Some d /\
       forall n v, get name_eqb n d = Some v <-> last_in n (c_vars c) v \/ (~ In n (map fst (c_vars c)) /\ get name_eqb n G = Some v)).
Proof.
  intros G before c after r. set (r0 := session G before). assert (GD : registry_ok r0) by (apply adds_registry_ok, game_registry_ok).
  assert (E : r = fold_left (add G) after (add G r0 c)) by (unfold r, r0, session; now rewrite fold_left_app).
  destruct (later_calls G after (add G r0 c) (add_registry_ok G r0 c GD)) as (N & F & M & T). rewrite <- E in *. clear E. change (next (add G r0 c)) with (S (next r0)) in *.
  exists {| f_id := c_id c; f_name := c_name c; f_class := c_class c; f_obj := next r0 |}. cbn [f_id f_name f_class f_obj].
  destruct (T (next r0) ltac:(lia)) as (A1 & A2 & A3 & A4 & A5).
  split; [intros H; rewrite F by exact H; apply (get_put_same _ Z_ok)|]. split; [intros H; rewrite M by exact H; apply (get_put_same _ name_ok)|].
  repeat (split; [reflexivity|]).
  split.
  { rewrite A5. unfold add, add_feature. cbn [VEHICLES]. destruct (c_vehicle c); [split; [reflexivity|now left]|]. split; [|discriminate].
    intros I. exfalso. destruct GD as [GV _]. rewrite Forall_forall in GV. apply GV in I. lia. }
  rewrite A1, A2, A3. unfold add, add_feature. cbn [PROPS PROP_DICT VARS].
  split; [apply (get_put_same _ nat_ok)|]. split.
  - eexists. split; [apply (get_put_same _ nat_ok)|]. intros n i s. rewrite (get_puts _ name_ok). cbn [get]. split.
    + intros [(b & a & E & NI) | [_ E]]; [|discriminate]. apply map_eq_app in E as (l & m & -> & <- & E). apply map_eq_cons in E as ([i' [n' s']] & m' & -> & E & <-).
      cbn in E. injection E as -> -> ->. exists l, m'. split; [reflexivity|]. rewrite map_map in NI. exact NI.
    + intros (l & m & -> & NI). left. exists (map (fun e => (fst (snd e), (fst e, snd (snd e)))) l), (map (fun e => (fst (snd e), (fst e, snd (snd e)))) m).
      rewrite map_app. split; [reflexivity|]. rewrite map_map. exact NI.
  - eexists. split; [apply (get_put_same _ nat_ok)|]. intros n v. apply (get_puts _ name_ok).
Qed.

(** The decompiler's table of a new feature: every name it has for the bits of
    a variable is a variable of the feature that reads exactly these bits, and
    there is one for the bits every variable reads. *)
Theorem C90_inverse : forall G before c after,
  NoDup (map fst G) -> Forall (fun v => 0 <= v_size (snd v)) (G ++ c_vars c) ->
  let r := session G (before ++ c :: after) in Forall (fun d => c_id d <> c_id c) after ->
  exists f vars inv, Feature r (c_id c) = Some f /\ get Nat.eqb (f_obj f) (VARS r) = Some vars /\ get Nat.eqb (f_obj f) (VARS_INV r) = Some inv /\
    (forall key n, get key_eqb key inv = Some n -> exists v, get name_eqb n vars = Some v /\ reads v key) /\
    (forall key n v, get name_eqb n vars = Some v -> reads v key -> exists n', get key_eqb key inv = Some n').
Proof.
  intros G before c after ND SZ r H. set (r0 := session G before). assert (GD : registry_ok r0) by (apply adds_registry_ok, game_registry_ok).
  assert (E : r = fold_left (add G) after (add G r0 c)) by (unfold r, r0, session; now rewrite fold_left_app).
  destruct (later_calls G after (add G r0 c) (add_registry_ok G r0 c GD)) as (N & F & M & T). rewrite <- E in *. clear E. change (next (add G r0 c)) with (S (next r0)) in *.
  destruct (T (next r0) ltac:(lia)) as (_ & _ & A3 & A4 & _).
  set (vars := puts name_eqb G (c_vars c)). set (inv := puts key_eqb [] (map (fun e => (var_key (snd e), fst e)) vars)).
  exists {| f_id := c_id c; f_name := c_name c; f_class := c_class c; f_obj := next r0 |}, vars, inv. cbn [f_obj].
  split; [rewrite F by exact H; apply (get_put_same _ Z_ok)|]. rewrite A3, A4.
  split; [apply (get_put_same _ nat_ok)|]. split; [apply (get_put_same _ nat_ok)|].
  assert (NV : NoDup (map fst vars)) by (apply (puts_nodup _ name_ok), ND).
  assert (SV : forall n v, get name_eqb n vars = Some v -> reads v (var_key v)).
  { intros n v E. assert (P : 0 <= v_size v).
    { rewrite Forall_forall in SZ. apply (get_puts _ name_ok) in E as [(b & a & E & _) | [_ E]].
      - apply (SZ (n, v)). rewrite in_app_iff, E, in_app_iff. right. right. now left.
      - apply (SZ (n, v)). rewrite in_app_iff. left. now apply (get_in_dict _ name_ok). }
    unfold reads, var_key. rewrite Z.shiftl_mul_pow2 by exact P. now rewrite Z.mul_1_l. }
  split.
  - intros key n E. apply (get_in_dict _ key_ok) in E. assert (I : In (key, n) (map (fun e => (var_key (snd e), fst e)) vars)).
    { assert (Q : forall (l : list ((Z * Z * Z) * bytes)) d x, In x (puts key_eqb d l) -> In x d \/ In x l).
      { clear. unfold puts. induction l as [|[k v] l IH]; intros d x I; cbn [fold_left] in I; [auto|]. apply IH in I as [I | I]; [|right; now right].
        cbn [fst snd] in I. revert I. induction d as [|[k' v'] d IHd]; cbn [put].
        - intros [<- | []]. right. now left.
        - destruct (key_eqb k k') eqn:KE.
          + apply key_ok in KE as <-. intros [<- | I]; [right; now left|left; now right].
          + intros [<- | I]; [left; now left|]. apply IHd in I as [I | I]; [left; now right|auto]. }
      apply Q in E as [[] | E]. exact E. }
    apply in_map_iff in I as ([n' v] & E2 & I). cbn in E2. injection E2 as <- <-. exists v. apply (in_dict_get _ name_ok) in I; [|exact NV]. split; [exact I|]. exact (SV n' v I).
  - intros key n v E R. pose proof (SV n v E) as R2. unfold reads in R, R2. rewrite <- R2 in R. subst key.
    assert (I : In (var_key v) (map fst (map (fun e : bytes * variable => (var_key (snd e), fst e)) vars))).
    { rewrite map_map. apply in_map_iff. exists (n, v). split; [reflexivity|]. now apply (get_in_dict _ name_ok). }
    assert (Q : forall (l : list ((Z * Z * Z) * bytes)) d k, In k (map fst l) \/ (exists n, get key_eqb k d = Some n) -> exists n, get key_eqb k (puts key_eqb d l) = Some n).
    { clear. unfold puts. induction l as [|[k v] l IH]; intros d x; cbn [fold_left map fst snd]; [intros [[]|H]; exact H|]. intros H. apply IH.
      destruct (key_decide _ key_ok x k) as [-> | NE]; [right; exists v; apply (get_put_same _ key_ok)|]. rewrite (get_put_other _ key_ok) by exact NE.
      destruct H as [[H | H] | H]; [congruence|auto|auto]. }
    apply Q. now left.
Qed.

(** The features of the game stay what they are while their ids, and their
    names, are not used. *)
Theorem C90_game_kept : forall G calls,
  (forall i, Forall (fun d => c_id d <> i) calls -> Feature (session G calls) i = Feature game i) /\
  (forall n, Forall (fun d => c_name d <> n) calls -> from_name (session G calls) n = from_name game n).
Proof. intros G calls. destruct (later_calls G calls game game_registry_ok) as (_ & A & B & _). auto. Qed.
(** Different ids are different features: no two share their tables. *)
Theorem C90_own_object : forall G calls i j f g, Feature (session G calls) i = Some f -> Feature (session G calls) j = Some g -> f_obj f = f_obj g -> i = j.
Proof.
  intros G calls i j. unfold session. induction calls as [|c calls IH] using rev_ind.
  - cbn [fold_left]. intros f g A B. apply game_lookup in A, B. lia.
  - rewrite fold_left_app. cbn [fold_left]. set (r := fold_left (add G) calls game) in *. assert (GD : registry_ok r) by (apply adds_registry_ok, game_registry_ok). destruct GD as [_ GD].
    intros f g. unfold Feature, add, add_feature. cbn. fold (Feature r i) (Feature r j).
    destruct (Z.eq_dec i (c_id c)) as [-> | NI]; destruct (Z.eq_dec j (c_id c)) as [-> | NJ]; [reflexivity| | |].
    + rewrite (get_put_same _ Z_ok), (get_put_other _ Z_ok) by exact NJ. intros A B. apply some_inj in A. subst f. apply GD in B. cbn. lia.
    + rewrite (get_put_same _ Z_ok), (get_put_other _ Z_ok) by exact NI. intros B A. apply some_inj in A. subst g. apply GD in B. cbn. lia.
    + rewrite !(get_put_other _ Z_ok) by assumption. apply IH.
Qed.
(** The game has the features 0 to 20, the first four of them are the vehicles;
    the text a feature prints as is the module's constant for it, so that
    evaluating the text gives the feature back. *)
Theorem C90_constants : (forall i, 0 <= i <= 20 <-> exists f, Feature game i = Some f) /\
  (forall i f, Feature game i = Some f -> get name_eqb (feature_repr f) (module_constants game) = Some f /\ from_name game (f_name f) = Some f /\
     (In (f_obj f) (VEHICLES game) <-> i <= 3)).
Proof.
  split.
  - intros i. split; [|intros [f E]; now apply game_lookup in E]. intros B.
    assert (i = 0 \/ i = 1 \/ i = 2 \/ i = 3 \/ i = 4 \/ i = 5 \/ i = 6 \/ i = 7 \/ i = 8 \/ i = 9 \/ i = 10 \/ i = 11 \/ i = 12 \/ i = 13 \/ i = 14 \/ i = 15 \/ i = 16 \/ i = 17 \/ i = 18 \/ i = 19 \/ i = 20) by lia.
    intuition subst; eexists; reflexivity.
  - intros i f E. apply (get_in_dict _ Z_ok) in E. vm_compute in E.
    repeat (destruct E as [E | E]; [injection E as <- <-; (split; [reflexivity|]); (split; [reflexivity|]); vm_compute; intuition (congruence || lia)|]). destruct E.
Qed.
(** from_constant gives no feature at all: it has no return statement. *)
Theorem C90_from_constant_refuted : forall r c f, from_constant r c <> Some (Some f).
Proof. intros r c f. unfold from_constant. destruct (from_name _ _); discriminate. Qed.

(** A concrete case: one new vehicle with one property and a variable of its
    own over a global one. *)
Example C90_case :
  let G := [(bs "date"%string, {| v_var := 0; v_start := 0; v_size := 16 |})] in
  let c := {| c_id := 33; c_name := bs "tram_2"%string; c_class := bs "Tram2"%string; c_props := [(8, (bs "speed"%string, 2))];
              c_vars := [(bs "age"%string, {| v_var := 64; v_start := 8; v_size := 8 |})]; c_vehicle := true |} in
  let r := session G [c] in
  exists f, Feature r 33 = Some f /\ from_name r (bs "tram_2"%string) = Some f /\ feature_repr f = bs "TRAM_2"%string /\ In (f_obj f) (VEHICLES r) /\
    get Nat.eqb (f_obj f) (VARS_INV r) = Some [((0, 0, 65535), bs "date"%string); ((64, 8, 255), bs "age"%string)].
Proof. eexists. split; [reflexivity|]. split; [reflexivity|]. split; [reflexivity|]. split; [now left|reflexivity]. Qed.

Print Assumptions C90_added.
Print Assumptions C90_inverse.
Print Assumptions C90_game_kept.
Print Assumptions C90_own_object.
Print Assumptions C90_constants.
Print Assumptions C90_from_constant_refuted.
