(** Proofs about generate_python (C70). *)
From Coq Require Import ZArith List Bool Lia ZifyBool.
From Verif Require Import Base BaseFacts CommonModel RecordsModel RecordsProofs DecodeModel ParserModel JsonProofs SheetProofs CommonProofs
  RefsModel SpecRefs RefsProofs GenPyModel SpecGenPy FlatRefsProofs.
Import ListNotations.
Open Scope Z_scope.

(** ** set_refs after get_refs *)

Definition hmap {R S} (f : R -> S) (h : holder R) : holder S :=
  match h with
  | HSwitch subs rs d => HSwitch (map (fun e => (fst e, f (snd e))) subs) (map (fun e => (fst e, f (snd e))) rs) (f d)
  | HRandom gs => HRandom (map f gs)
  | HMap m d => HMap (map (fun e => (fst e, f (snd e))) m) (f d)
  | HNone => HNone
  end.
Lemma take_refs_map : forall {K R S} (f : R -> S) (l : list (K * R)) it,
  take_refs l (map f (map snd l) ++ it) = Some (map (fun e => (fst e, f (snd e))) l, it).
Proof.
  induction l as [|[k r] l IH]; intro it; cbn [take_refs map app snd fst]; [reflexivity|]. rewrite IH. reflexivity.
Qed.
Lemma set_get : forall {R S} (f : R -> S) (h : holder R), set_refs h (map f (get_refs h)) = Some (hmap f h).
Proof.
  intros R S f [subs rs d|gs|m d|]; cbn [set_refs get_refs hmap]; try reflexivity.
  - rewrite !map_app. rewrite take_refs_map. cbn [bind]. rewrite take_refs_map. reflexivity.
  - rewrite map_app. cbn [map]. rewrite rev_app_distr. cbn [rev app]. rewrite take_refs_map. reflexivity.
Qed.
Lemma get_hmap : forall {R S} (f : R -> S) h, get_refs (hmap f h) = map f (get_refs h).
Proof.
  intros R S f [subs rs d|gs|m d|]; cbn [get_refs hmap]; try reflexivity; rewrite ?map_app, ?map_map; reflexivity.
Qed.
Lemma referencing_hmap : forall {R S} (f : R -> S) h, referencing (hmap f h) = referencing h.
Proof. intros R S f [subs rs d|gs|m d|]; reflexivity. Qed.
Lemma hmap_ext : forall {R S} (f f' : R -> S) h, (forall r, In r (get_refs h) -> f r = f' r) -> hmap f h = hmap f' h.
Proof.
  intros R S f f' [subs rs d|gs|m d|] H; cbn [hmap get_refs] in *; try reflexivity; f_equal; try (apply H; rewrite ?in_app_iff; cbn [In]; tauto).
  - apply map_ext_in. intros e E. f_equal. apply H. rewrite in_app_iff. left. now apply in_map.
  - apply map_ext_in. intros e E. f_equal. apply H. rewrite !in_app_iff. right. left. now apply in_map.
  - apply map_ext_in. intros e E. now apply H.
  - apply map_ext_in. intros e E. f_equal. apply H. rewrite in_app_iff. left. now apply in_map.
Qed.

(** ** Names *)

Definition no_us (s : bytes) : Prop := ~ In 95 s.
Lemma str_nat_no_us : forall v, 0 <= v -> no_us (str_nat v).
Proof.
  intros v Hv I. pose proof (str_nat_digits v Hv) as D. rewrite forallb_forall in D. specialize (D _ I). cbv in D. discriminate D.
Qed.
Lemma us_split : forall a b c d, no_us a -> no_us c -> a ++ 95 :: b = c ++ 95 :: d -> a = c /\ b = d.
Proof.
  induction a as [|x a IH]; intros b [|y c] d Ha Hc H; cbn [app] in H.
  - injection H as ->. auto.
  - injection H as <- _. exfalso. apply Hc. now left.
  - injection H as -> _. exfalso. apply Ha. now left.
  - injection H as -> H. destruct (IH b c d) as [-> ->]; auto; intro I; [apply Ha|apply Hc]; now right.
Qed.
Lemma ref_var_inj : forall v c v' c', 0 <= v -> 0 <= v' -> 0 <= c -> 0 <= c' -> ref_var v c = ref_var v' c' -> v = v' /\ c = c'.
Proof.
  intros v c v' c' Hv Hv' Hc Hc' H. unfold ref_var in H. apply app_inv_head in H. unfold str_int in H.
  replace (v <? 0) with false in H by lia. replace (v' <? 0) with false in H by lia.
  apply us_split in H; try now apply str_nat_no_us. destruct H as [H1 H2]. split; now apply str_nat_inj.
Qed.

(** ** The first pass *)

Section Pass1.
  Variable l : list (action pref).
  Let n := length l.

  (** the last of the first i actions carrying v, and how many do *)
  Definition carriesb (j : nat) (v : Z) : bool :=
    pa_referenceable (heap_of l j) && match pa_ref_id (heap_of l j) with Some w => w =? v | None => false end.
  Fixpoint lastdef (i : nat) (v : Z) : option nat :=
    match i with O => None | S i => if carriesb i v then Some i else lastdef i v end.
  Fixpoint count (i : nat) (v : Z) : Z := match i with O => 0 | S i => count i v + (if carriesb i v then 1 else 0) end.
  Definition linked (i : nat) (r : pref) : pref :=
    match r with
    | PRef v => if is_callback v then r else match lastdef i v with Some s => PAct s | None => r end
    | _ => r
    end.
  Definition linked_action (i : nat) : action pref :=
    let a := heap_of l i in mkPA (pa_referenceable a) (pa_feature a) (pa_ref_id a) (pa_rest a) (hmap (linked i) (pa_hold a)).
  Definition var_of (i : nat) : option bytes :=
    match pa_referenceable (heap_of l i), pa_ref_id (heap_of l i) with
    | true, Some v => Some (ref_var v (count (S i) v))
    | _, _ => None
    end.

  Record linv (i : nat) (h0 : nat -> action pref) (st : gstate) : Prop := {
    l_heap : forall k, gs_heap st k = if Nat.ltb k i then linked_action k else h0 k;
    l_refs : forall v, dict_get Z.eqb (gs_refs st) v = lastdef i v;
    l_count : forall v, match dict_get Z.eqb (gs_count st) v with Some c => c | None => 0 end = count i v;
    l_var : forall k, gs_var st k = if Nat.ltb k i then var_of k else None }.

  Lemma getset_Z : forall {V} (d : list (Z * V)) k v x, dict_get Z.eqb (dict_set Z.eqb d k v) x = if x =? k then Some v else dict_get Z.eqb d x.
  Proof.
    induction d as [|[k' v'] d IH]; intros k v x; cbn [dict_set dict_get]; [reflexivity|].
    destruct (Z.eqb_spec k k') as [->|N]; cbn [dict_get].
    - destruct (x =? k'); reflexivity.
    - rewrite IH. destruct (Z.eqb_spec x k'), (Z.eqb_spec x k); try reflexivity. congruence.
  Qed.

  (** [h0] may have been through the pass already. *)
  Definition start_heap (h0 : nat -> action pref) : Prop :=
    forall k, h0 k = heap_of l k \/ h0 k = linked_action k.
  Lemma link1_linked : forall st i h0 r, linv i h0 st -> link1 (gs_refs st) r = linked i r.
  Proof. intros st i h0 r I. destruct r as [a|v|m]; cbn [link1 linked]; try reflexivity. destruct (is_callback v); [reflexivity|]. now rewrite (l_refs _ _ _ I). Qed.
  Lemma linked_twice : forall i r, linked i (linked i r) = linked i r.
  Proof.
    intros i [a|v|m]; cbn [linked]; try reflexivity. destruct (is_callback v) eqn:C; cbn [linked]; [now rewrite C|].
    destruct (lastdef i v) eqn:L; cbn [linked]; [reflexivity|]. now rewrite C, L.
  Qed.
  Lemma hmap_hmap : forall {A B C} (f : A -> B) (f' : B -> C) h, hmap f' (hmap f h) = hmap (fun x => f' (f x)) h.
  Proof. intros A B C f f' [subs rs d|gs|m d|]; cbn [hmap]; rewrite ?map_map; reflexivity. Qed.

  Lemma link_step_ok : forall i h0 st, start_heap h0 -> linv i h0 st -> exists st', link_step i st = Some st' /\ linv (S i) h0 st'.
  Proof.
    intros i h0 st H0 I. unfold link_step. cbv zeta.
    pose proof (l_heap _ _ _ I i) as Hh. rewrite Nat.ltb_irrefl in Hh.
    assert (At : pa_referenceable (gs_heap st i) = pa_referenceable (heap_of l i) /\ pa_feature (gs_heap st i) = pa_feature (heap_of l i) /\
                 pa_ref_id (gs_heap st i) = pa_ref_id (heap_of l i) /\ pa_rest (gs_heap st i) = pa_rest (heap_of l i)).
    { rewrite Hh. destruct (H0 i) as [-> | ->]; cbn; auto. }
    destruct At as (T1 & T2 & T3 & T4).
    assert (E : (if referencing (pa_hold (gs_heap st i)) then set_refs (pa_hold (gs_heap st i)) (map (link1 (gs_refs st)) (get_refs (pa_hold (gs_heap st i)))) else Some (pa_hold (gs_heap st i)))
                = Some (hmap (linked i) (pa_hold (heap_of l i)))).
    { assert (G : hmap (link1 (gs_refs st)) (pa_hold (gs_heap st i)) = hmap (linked i) (pa_hold (heap_of l i))).
      { rewrite Hh. destruct (H0 i) as [-> | ->].
        - apply hmap_ext. intros r _. apply (link1_linked _ _ _ _ I).
        - unfold linked_action. cbn [pa_hold]. rewrite hmap_hmap. apply hmap_ext. intros r _.
          rewrite (link1_linked _ _ _ _ I). apply linked_twice. }
      rewrite set_get, G. destruct (referencing (pa_hold (gs_heap st i))) eqn:R; [reflexivity|].
      rewrite <- G. destruct (pa_hold (gs_heap st i)); try discriminate R. reflexivity. }
    rewrite E. cbn [bind]. rewrite T1, T2, T3, T4.
    assert (HH : forall k, upd (gs_heap st) i (linked_action i) k = if Nat.ltb k (S i) then linked_action k else h0 k).
    { intro k. unfold upd. destruct (Nat.eqb k i) eqn:Ek.
      - apply Nat.eqb_eq in Ek. subst k. replace (Nat.ltb i (S i)) with true by (symmetry; apply Nat.ltb_lt; lia). reflexivity.
      - apply Nat.eqb_neq in Ek. rewrite (l_heap _ _ _ I). destruct (Nat.ltb_spec k i), (Nat.ltb_spec k (S i)); try lia; reflexivity. }
    fold (linked_action i).
    destruct (pa_referenceable (heap_of l i)) eqn:R; [destruct (pa_ref_id (heap_of l i)) as [v|] eqn:V|].
    2,3: eexists; split; [reflexivity|];
      assert (CB : forall w, carriesb i w = false) by (intro w; unfold carriesb; rewrite R; try rewrite V; reflexivity);
      constructor; cbn [gs_heap gs_refs gs_count gs_var];
      [ exact HH
      | intro w; cbn [lastdef]; rewrite CB; apply (l_refs _ _ _ I)
      | intro w; cbn [count]; rewrite CB, (l_count _ _ _ I); lia
      | intro k; rewrite (l_var _ _ _ I); destruct (Nat.ltb_spec k i), (Nat.ltb_spec k (S i)); try lia; try reflexivity;
        replace k with i by lia; unfold var_of; rewrite R; try rewrite V; reflexivity ].
    eexists. split; [reflexivity|].
    assert (CB : forall w, carriesb i w = (v =? w)) by (intro w; unfold carriesb; rewrite R, V; reflexivity).
    constructor; cbn [gs_heap gs_refs gs_count gs_var].
    - exact HH.
    - intro w. rewrite getset_Z. cbn [lastdef]. rewrite CB, (l_refs _ _ _ I), Z.eqb_sym. reflexivity.
    - intro w. rewrite getset_Z. cbn [count]. rewrite CB. destruct (Z.eqb_spec w v) as [->|Nw].
      + rewrite Z.eqb_refl. now rewrite (l_count _ _ _ I).
      + replace (v =? w) with false by lia. rewrite (l_count _ _ _ I). lia.
    - intro k. unfold upd. destruct (Nat.eqb k i) eqn:Ek.
      + apply Nat.eqb_eq in Ek. subst k. replace (Nat.ltb i (S i)) with true by (symmetry; apply Nat.ltb_lt; lia).
        unfold var_of. rewrite R, V. cbn [count]. rewrite CB, Z.eqb_refl. now rewrite (l_count _ _ _ I).
      + apply Nat.eqb_neq in Ek. rewrite (l_var _ _ _ I). destruct (Nat.ltb_spec k i), (Nat.ltb_spec k (S i)); try lia; reflexivity.
  Qed.

  Lemma link_steps : forall k i h0 st, start_heap h0 -> linv i h0 st ->
    exists st', fold_opt link_step (seq i k) st = Some st' /\ linv (i + k) h0 st'.
  Proof.
    induction k as [|k IH]; intros i h0 st H0 I; cbn [seq fold_opt].
    - exists st. rewrite Nat.add_0_r. auto.
    - destruct (link_step_ok i h0 st H0 I) as (st1 & E1 & I1). rewrite E1. cbn [bind].
      destruct (IH (S i) h0 st1 H0 I1) as (st2 & E2 & I2). exists st2. split; [exact E2|]. now rewrite Nat.add_succ_r.
  Qed.
  Lemma link_all_ok : forall h0, start_heap h0 -> exists st, link_all h0 (seq 0 n) = Some st /\ linv n h0 st.
  Proof.
    intros h0 H0. unfold link_all. apply (link_steps n 0 h0 _ H0). constructor; cbn; intros; reflexivity.
  Qed.
End Pass1.

(** ** Bits *)

Lemma is_callback_bit : forall v, is_callback v = Z.testbit v 15.
Proof.
  intro v. unfold is_callback. change 32768 with (2 ^ 15). destruct (Z.testbit v 15) eqn:B.
  - destruct (Z.eqb_spec (Z.land v (2 ^ 15)) 0) as [E|N]; [|reflexivity].
    assert (X : Z.testbit (Z.land v (2 ^ 15)) 15 = true) by (rewrite Z.land_spec, B; reflexivity). rewrite E in X. discriminate X.
  - replace (Z.land v (2 ^ 15)) with 0; [reflexivity|]. symmetry. apply Z.bits_inj'. intros k Hk. rewrite Z.land_spec, Z.bits_0.
    rewrite Z.pow2_bits_eqb by lia. destruct (Z.eqb_spec 15 k) as [<-|N]; [now rewrite B|apply andb_false_r].
Qed.
Lemma land_low : forall v, Z.land v 32767 = v mod 32768.
Proof. intro v. change 32767 with (Z.ones 15). apply Z.land_ones. lia. Qed.
Lemma bit15 : forall v, 0 <= v < 65536 -> Z.testbit v 15 = (32768 <=? v).
Proof.
  intros v H. rewrite Z.testbit_odd, Z.shiftr_div_pow2 by lia. change (2 ^ 15) with 32768.
  destruct (Z.leb_spec 32768 v).
  - replace (v / 32768) with 1; [reflexivity|]. apply Z.div_unique with (v - 32768); lia.
  - now rewrite Z.div_small by lia.
Qed.
Lemma cb_round : forall v, 0 <= v < 65536 -> Z.testbit v 15 = true -> Z.lor (Z.land v 32767) 32768 = v.
Proof.
  intros v H B. rewrite bit15 in B by exact H. rewrite land_low.
  assert (E : v mod 32768 = v - 32768) by (symmetry; apply Z.mod_unique with 1; lia). rewrite E.
  pose proof (lor_shift (v - 32768) 1 15 ltac:(lia) ltac:(change (2 ^ 15) with 32768; lia)) as L.
  change (Z.shiftl 1 15) with 32768 in L. rewrite L. change (2 ^ 15) with 32768. lia.
Qed.
Lemma ref_round : forall v, 0 <= v < 65536 -> Z.testbit v 15 = false -> Z.land v 32767 = v.
Proof. intros v H B. rewrite bit15 in B by exact H. rewrite land_low. apply Z.mod_small. lia. Qed.

(** ** Names are distinct *)

Section Pass2.
  Variable l : list (action pref).
  Hypothesis HD : Forall decoded l.
  Let n := length l.

  Lemma heap_nth : forall i, (i < n)%nat -> nth_error l i = Some (heap_of l i).
  Proof. intros i H. unfold heap_of. now apply nth_error_nth'. Qed.
  Lemma heap_decoded : forall i, decoded (heap_of l i).
  Proof.
    intro i. destruct (Nat.lt_ge_cases i n) as [L|G].
    - rewrite Forall_forall in HD. apply HD. unfold heap_of. now apply nth_In.
    - unfold heap_of. rewrite nth_overflow by exact G. constructor; cbn; auto.
  Qed.
  Lemma carriesb_spec : forall j v, (j < n)%nat -> carriesb l j v = true <-> carries l j v.
  Proof.
    intros j v L. unfold carriesb, carries. rewrite (heap_nth j L). split.
    - intro H. apply andb_prop in H as [R H]. destruct (pa_ref_id (heap_of l j)) as [w|] eqn:W; [|discriminate].
      exists (heap_of l j). split; [reflexivity|]. split; [exact R|]. rewrite W. f_equal. lia.
    - intros (a & E & R & V). injection E as <-. rewrite R, V. cbn. apply Z.eqb_refl.
  Qed.
  Lemma carriesb_nonneg : forall j v, carriesb l j v = true -> 0 <= v.
  Proof.
    intros j v H. unfold carriesb in H. apply andb_prop in H as [R H]. pose proof (de_id _ (heap_decoded j)) as D. rewrite R in D.
    destruct D as (w & W & P). rewrite W in H. lia.
  Qed.
  Lemma count_nonneg : forall i v, 0 <= count l i v.
  Proof. induction i as [|i IH]; intro v; cbn [count]; [lia|]. specialize (IH v). destruct (carriesb l i v); lia. Qed.
  Lemma count_mono : forall i j v, (i <= j)%nat -> count l i v <= count l j v.
  Proof.
    intros i j v L. induction L as [|j L IH]; [lia|]. cbn [count]. destruct (carriesb l j v); lia.
  Qed.
  Lemma var_of_inv : forall i x, var_of l i = Some x -> exists v, carriesb l i v = true /\ x = ref_var v (count l (S i) v).
  Proof.
    intros i x H. unfold var_of in H. destruct (pa_referenceable (heap_of l i)) eqn:R; [|discriminate].
    destruct (pa_ref_id (heap_of l i)) as [v|] eqn:V; [|discriminate]. injection H as <-. exists v. split; [|reflexivity].
    unfold carriesb. rewrite R, V. cbn. apply Z.eqb_refl.
  Qed.
  Lemma var_of_inj : forall i j x, var_of l i = Some x -> var_of l j = Some x -> i = j.
  Proof.
    intros i j x Hi Hj. apply var_of_inv in Hi as (v & Ci & ->). apply var_of_inv in Hj as (w & Cj & E).
    apply ref_var_inj in E; try apply count_nonneg; try (eapply carriesb_nonneg; eassumption). destruct E as [<- E].
    destruct (Nat.lt_trichotomy i j) as [L|[L|L]]; [|exact L|].
    - pose proof (count_mono (S i) j v L) as M. cbn [count] in E, M. rewrite Ci, Cj in E. rewrite Ci in M. lia.
    - pose proof (count_mono (S j) i v L) as M. cbn [count] in E, M. rewrite Ci, Cj in E. rewrite Cj in M. lia.
  Qed.
  Lemma lastdef_inv : forall i v j, lastdef l i v = Some j -> (j < i)%nat /\ carriesb l j v = true /\ forall k, (j < k < i)%nat -> carriesb l k v = false.
  Proof.
    induction i as [|i IH]; intros v j H; cbn [lastdef] in H; [discriminate|]. destruct (carriesb l i v) eqn:C.
    - injection H as <-. split; [lia|]. split; [exact C|]. intros k K. lia.
    - destruct (IH v j H) as (A & B & D). split; [lia|]. split; [exact B|]. intros k K. destruct (Nat.eq_dec k i) as [->|Nk]; [exact C|].
      apply D. lia.
  Qed.
  Lemma lastdef_none : forall i v, lastdef l i v = None -> forall j, (j < i)%nat -> carriesb l j v = false.
  Proof.
    induction i as [|i IH]; intros v H j L; [lia|]. cbn [lastdef] in H. destruct (carriesb l i v) eqn:C; [discriminate|].
    destruct (Nat.eq_dec j i) as [->|Nj]; [exact C|]. apply IH; [exact H|lia].
  Qed.

  Lemma linked_spec : forall i r, (i <= n)%nat -> decoded_ref r -> rebuilt_ref l i r (linked l i r).
  Proof.
    intros i [a|v|m] L D; cbn [decoded_ref] in D; [destruct D| |constructor]. cbn [linked]. rewrite is_callback_bit.
    destruct (Z.testbit v 15) eqn:B; [now constructor|]. destruct (lastdef l i v) as [j|] eqn:E.
    - apply lastdef_inv in E as (A1 & A2 & A3). apply rr_object; [exact B|]. split; [exact A1|].
      split; [apply carriesb_spec; [lia|exact A2]|]. intros k K C. apply carriesb_spec in C; [|lia]. rewrite A3 in C by exact K. discriminate.
    - apply rr_nothing; [exact B|]. intros j Lj C. apply carriesb_spec in C; [|lia]. rewrite (lastdef_none _ _ E j Lj) in C. discriminate.
  Qed.

  (** ** The second pass and the run *)

  Lemma beq_refl : forall x, beq x x = true.
  Proof. intro x. unfold beq. now destruct (list_eq_dec Z.eq_dec x x). Qed.
  Lemma beq_neq : forall x y, x <> y -> beq x y = false.
  Proof. intros x y H. unfold beq. now destruct (list_eq_dec Z.eq_dec x y). Qed.
  Lemma getset_b : forall {V} (d : list (bytes * V)) k v x, dict_get beq (dict_set beq d k v) x = if beq x k then Some v else dict_get beq d x.
  Proof.
    induction d as [|[k' v'] d IH]; intros k v x; cbn [dict_set dict_get]; [reflexivity|].
    destruct (list_eq_dec Z.eq_dec k k') as [->|N]; [rewrite beq_refl|rewrite (beq_neq k k' N)]; cbn [dict_get].
    - destruct (beq x k'); reflexivity.
    - rewrite IH. destruct (list_eq_dec Z.eq_dec x k') as [->|N']; [|now rewrite (beq_neq x k' N')].
      rewrite beq_refl. rewrite (beq_neq k' k) by congruence. reflexivity.
  Qed.

  Variable st : gstate.
  Hypothesis HL : linv l n (heap_of l) st.

  Definition env_ok (i : nat) (env : list (bytes * nat)) : Prop :=
    forall j x, (j < i)%nat -> var_of l j = Some x -> dict_get beq env x = Some j.

  Lemma eval_linked : forall i env r, (i <= n)%nat -> env_ok i env -> decoded_ref r -> eval env (format_ref st (linked l i r)) = Some (linked l i r).
  Proof.
    intros i env [a|v|m] Li HE D; cbn [decoded_ref] in D; [destruct D| |reflexivity]. cbn [linked].
    destruct (is_callback v) eqn:C.
    - cbn [format_ref]. rewrite C. cbn [eval]. rewrite is_callback_bit in C. now rewrite cb_round.
    - destruct (lastdef l i v) as [j|] eqn:E.
      + apply lastdef_inv in E as (A1 & A2 & A3). cbn [format_ref]. rewrite (l_heap _ _ _ _ HL), (l_var _ _ _ _ HL).
        replace (Nat.ltb j n) with true by (symmetry; apply Nat.ltb_lt; lia). cbn [pa_referenceable linked_action].
        unfold carriesb in A2. apply andb_prop in A2 as [R V]. unfold linked_action. cbn [pa_referenceable]. rewrite R.
        destruct (pa_ref_id (heap_of l j)) as [w|] eqn:W; [|discriminate V].
        assert (X : var_of l j = Some (ref_var w (count l (S j) w))) by (unfold var_of; now rewrite R, W).
        rewrite X. cbn [eval]. rewrite (HE j _ A1 X). reflexivity.
      + cbn [format_ref]. rewrite C. cbn [eval]. rewrite is_callback_bit in C. now rewrite ref_round.
  Qed.
  Lemma eval_items_ok : forall {A K} (key : A -> K) (val : A -> pref) env (m : list A),
    (forall e, In e m -> eval env (format_ref st (val e)) = Some (val e)) ->
    eval_items env (map (fun e => (key e, format_ref st (val e))) m) = Some (map (fun e => (key e, val e)) m).
  Proof.
    intros A K key val env. induction m as [|e m IH]; intro H; cbn [map eval_items]; [reflexivity|].
    rewrite H by now left. cbn [bind]. rewrite IH by (intros x X; apply H; now right). reflexivity.
  Qed.
  Lemma eval_list_ok : forall env m, (forall e, In e m -> eval env (format_ref st e) = Some e) -> eval_list env (map (format_ref st) m) = Some m.
  Proof.
    intros env. induction m as [|e m IH]; intro H; cbn [map eval_list]; [reflexivity|].
    rewrite H by now left. cbn [bind]. rewrite IH by (intros x X; apply H; now right). reflexivity.
  Qed.

  (** What the constructors make of the printed arguments. *)
  Definition reread (h : holder pref) : holder pref :=
    match h with
    | HSwitch _ rs d => HSwitch [] (map key_range (dict_of key_eqb (map (fun r => (range_key (fst (fst r)) (snd (fst r)), snd r)) rs))) d
    | HRandom gs => HRandom gs
    | HMap m d => HMap (dict_of Z.eqb (map (fun e => (fst e, snd e)) m)) d
    | HNone => HNone
    end.
  Lemma eval_args_ok : forall env h, (forall r, In r (get_refs h) -> eval env (format_ref st r) = Some r) ->
    eval_args env (print_args st h) = Some (reread h).
  Proof.
    intros env [subs rs d|gs|m d|] H; cbn [print_args eval_args reread get_refs] in *.
    - rewrite (eval_items_ok (fun r => range_key (fst (fst r)) (snd (fst r))) snd).
      2: { intros e E. apply H. rewrite !in_app_iff. right. left. now apply in_map. }
      cbn [bind]. rewrite H by (rewrite !in_app_iff; cbn; tauto). reflexivity.
    - now rewrite eval_list_ok.
    - rewrite (eval_items_ok fst snd). 2: { intros e E. apply H. rewrite in_app_iff. left. now apply in_map. }
      cbn [bind]. rewrite H by (rewrite in_app_iff; cbn; tauto). reflexivity.
    - reflexivity.
  Qed.

  Definition rebuilt (i : nat) : action pref :=
    let a := heap_of l i in mkPA (pa_referenceable a) (pa_feature a) (pa_ref_id a) (pa_rest a) (reread (hmap (linked l i) (pa_hold a))).

  Lemma run_ok : forall k i env, (i + k = n)%nat -> env_ok i env ->
    run_program env i (map (print_action st) (seq i k)) = Some (map rebuilt (seq i k)).
  Proof.
    induction k as [|k IH]; intros i env E HE; cbn [seq map run_program]; [reflexivity|].
    assert (Hh : gs_heap st i = linked_action l i).
    { rewrite (l_heap _ _ _ _ HL). now replace (Nat.ltb i n) with true by (symmetry; apply Nat.ltb_lt; lia). }
    unfold print_action at 1. rewrite Hh. cbn [st_args linked_action pa_hold].
    pose proof (heap_decoded i) as D.
    rewrite eval_args_ok.
    2: { intros r I. unfold linked_action in I. cbn [pa_hold] in I. rewrite get_hmap in I. apply in_map_iff in I as (r0 & <- & I). apply eval_linked; [lia|exact HE|].
         pose proof (de_refs _ D) as F. rewrite Forall_forall in F. now apply F. }
    cbn [bind]. cbn [st_var print_action].
    assert (V : st_var (print_action st i) = var_of l i).
    { unfold print_action. cbn [st_var]. rewrite Hh. unfold linked_action. cbn [pa_referenceable].
      rewrite (l_var _ _ _ _ HL). replace (Nat.ltb i n) with true by (symmetry; apply Nat.ltb_lt; lia).
      unfold var_of. destruct (pa_referenceable (heap_of l i)); reflexivity. }
    assert (HE' : env_ok (S i) (match st_var (print_action st i) with Some x => dict_set beq env x i | None => env end)).
    { rewrite V. intros j x L X. destruct (var_of l i) as [y|] eqn:Y.
      - rewrite getset_b. destruct (Nat.eq_dec j i) as [->|Nj].
        + replace x with y by congruence. now rewrite beq_refl.
        + rewrite beq_neq; [apply HE; [lia|exact X]|]. intros ->. apply Nj. eapply var_of_inj; eassumption.
      - apply HE; [|exact X]. destruct (Nat.eq_dec j i) as [->|Nj]; [congruence|lia]. }
    rewrite IH; [|lia|exact HE']. cbn [bind]. unfold rebuilt at 2. cbv zeta. unfold print_action. cbn [st_referenceable st_feature st_ref_id st_rest]. rewrite Hh.
    unfold linked_action. cbn [pa_referenceable pa_feature pa_ref_id pa_rest pa_hold].
    do 3 f_equal. pose proof (de_id _ D) as I. destruct (pa_referenceable (heap_of l i)); [reflexivity|]. now rewrite I.
  Qed.
End Pass2.

Lemma rebuild_ok : forall l, Forall decoded l -> rebuild (heap_of l) (seq 0 (length l)) = Some (map (rebuilt l) (seq 0 (length l))).
Proof.
  intros l HD. unfold rebuild, generate_python.
  destruct (link_all_ok l (heap_of l)) as (st & E & I); [intro k; now left|]. rewrite E. cbn [bind].
  apply (run_ok l HD st I); [reflexivity|]. intros j x L. lia.
Qed.

(** ** Distinct keys survive the dict *)

Lemma dict_of_distinct : forall {K V} (eqb : K -> K -> bool), (forall a b, eqb a b = true <-> a = b) ->
  forall (m : list (K * V)), NoDup (map fst m) -> dict_of eqb m = m.
Proof.
  intros K V eqb He m. unfold dict_of.
  assert (H : forall (m acc : list (K * V)), NoDup (map fst (acc ++ m)) -> fold_left (fun d e => dict_set eqb d (fst e) (snd e)) m acc = acc ++ m).
  { clear m. induction m as [|[k v] m IH]; intros acc N; cbn [fold_left]; [now rewrite app_nil_r|]. cbn [fst snd].
    rewrite dict_set_fresh; [|exact He|].
    - rewrite IH; rewrite <- app_assoc; [reflexivity|exact N].
    - rewrite map_app in N. cbn [map fst] in N. apply NoDup_remove_2 in N. intro I. apply N, in_or_app. now left. }
  intro N. apply (H m []). exact N.
Qed.
Lemma key_eqb_eq : forall a b, key_eqb a b = true <-> a = b.
Proof.
  intros [x|x y] [x'|x' y']; cbn [key_eqb]; split; intro H; try discriminate H; try (injection H; intros); subst; try lia.
  - f_equal. lia.
  - apply andb_prop in H as [H1 H2]. f_equal; lia.
Qed.
Lemma utoi32_signed : forall v, word32 v -> signed32 v (utoi32 v).
Proof.
  intros v H. unfold word32 in H. change (2 ^ 32) with 4294967296 in H. unfold signed32. change (2 ^ 31) with 2147483648. change (2 ^ 32) with 4294967296.
  rewrite utoi32_spec by exact H. destruct (Z.ltb_spec v 2147483648).
  - split; [lia|]. exists 0. lia.
  - split; [lia|]. exists (-1). lia.
Qed.
Lemma signed32_inj : forall x x' y, word32 x -> word32 x' -> signed32 x y -> signed32 x' y -> x = x'.
Proof.
  intros x x' y. unfold word32, signed32. change (2 ^ 32) with 4294967296. intros H H' (_ & k & E) (_ & k' & E'). nia.
Qed.
Lemma range_key_inj : forall a b a' b', word32 a -> word32 b -> word32 a' -> word32 b' -> range_key a b = range_key a' b' -> (a, b) = (a', b').
Proof.
  intros a b a' b' A B A' B' H. unfold range_key in H.
  assert (U : forall x y, word32 x -> word32 y -> utoi32 x = utoi32 y -> x = y).
  { intros x y X Y E. apply (signed32_inj x y (utoi32 x)); auto; [now apply utoi32_signed|rewrite E; now apply utoi32_signed]. }
  destruct (Z.eqb_spec a b) as [->|N], (Z.eqb_spec a' b') as [->|N']; try discriminate H.
  - injection H as H. apply U in H; auto. congruence.
  - injection H as H1 H2. apply U in H1; auto. apply U in H2; auto. congruence.
Qed.
Lemma NoDup_map_inj : forall {A B} (f : A -> B) (l : list A), (forall x y, In x l -> In y l -> f x = f y -> x = y) -> NoDup l -> NoDup (map f l).
Proof.
  intros A B f l. induction l as [|x l IH]; intros H N; cbn [map]; [constructor|]. inversion N as [|? ? Nx Nl]; subst. constructor.
  - intro I. apply in_map_iff in I as (y & E & I). apply Nx. replace x with y; [exact I|]. apply H; [now right|now left|exact E].
  - apply IH; [|exact Nl]. intros y z Y Z. apply H; now right.
Qed.
Lemma key_range_ok : forall low high r, fst (fst (key_range (range_key low high, r))) = utoi32 low /\ snd (fst (key_range (range_key low high, r))) = utoi32 high /\ snd (key_range (range_key low high, r)) = r.
Proof.
  intros low high r. unfold key_range, range_key. cbn [fst snd]. destruct (Z.eqb_spec low high) as [->|N]; cbn; auto.
Qed.
Lemma forall2_map : forall {A B} (P : A -> B -> Prop) (f : A -> B) l, (forall x, In x l -> P x (f x)) -> Forall2 P l (map f l).
Proof. intros A B P f. induction l as [|x l IH]; intro H; cbn [map]; constructor; [apply H; now left|apply IH; intros y Y; apply H; now right]. Qed.

Lemma reread_same : forall (R : pref -> pref -> Prop) (f : pref -> pref) a, decoded a -> distinct (pa_hold a) ->
  (forall r, In r (get_refs (pa_hold a)) -> R r (f r)) -> same_hold R (pa_hold a) (reread (hmap f (pa_hold a))).
Proof.
  intros R f a [_ _ D] N H. destruct (pa_hold a) as [subs rs d|gs|m d|]; cbn [hmap reread get_refs distinct] in *.
  - destruct D as [-> W]. rewrite map_map. cbn [fst snd]. rewrite dict_of_distinct; [|exact key_eqb_eq|].
    + rewrite map_map. constructor; [|apply H; rewrite !in_app_iff; cbn; tauto].
      apply forall2_map. intros [[lo hi] r] I. cbn [fst snd]. rewrite Forall_forall in W. destruct (W _ I) as [W1 W2]. cbn [fst snd] in W1, W2.
      destruct (key_range_ok lo hi (f r)) as (-> & -> & ->). split; [now apply utoi32_signed|]. split; [now apply utoi32_signed|].
      apply H. rewrite !in_app_iff. right. left. change r with (snd ((lo, hi), r)). now apply in_map.
    + rewrite map_map. cbn [fst]. rewrite <- (map_map fst (fun p => range_key (fst p) (snd p))). apply NoDup_map_inj; [|exact N].
      intros [x y] [x' y'] X Y E. apply in_map_iff in X as (e & Ee & X). apply in_map_iff in Y as (e' & Ee' & Y).
      rewrite Forall_forall in W. destruct (W _ X) as [P1 P2]. destruct (W _ Y) as [Q1 Q2]. rewrite Ee in P1, P2. rewrite Ee' in Q1, Q2.
      cbn [fst snd] in *. now apply range_key_inj.
  - constructor. now apply forall2_map.
  - rewrite map_map. cbn [fst snd]. rewrite dict_of_distinct; [|apply Z.eqb_eq|].
    + constructor; [|apply H; rewrite in_app_iff; cbn; tauto]. apply forall2_map. intros e I. cbn [fst snd]. split; [reflexivity|].
      apply H. rewrite in_app_iff. left. now apply in_map.
    + rewrite map_map. exact N.
  - constructor.
Qed.

Lemma nth_error_seq_map : forall {A} (f : nat -> A) n i, (i < n)%nat -> nth_error (map f (seq 0 n)) i = Some (f i).
Proof.
  intros A f n i L. rewrite (map_nth_error f i (seq 0 n) (d := i)); [reflexivity|]. rewrite (nth_error_nth' _ 0%nat) by now rewrite seq_length.
  now rewrite seq_nth.
Qed.

Lemma rebuild_same : forall l, Forall decoded l -> Forall (fun a => distinct (pa_hold a)) l ->
  exists l', rebuild (heap_of l) (seq 0 (length l)) = Some l' /\ length l' = length l /\
    forall i a, nth_error l i = Some a -> exists a', nth_error l' i = Some a' /\ same_action (rebuilt_ref l i) a a'.
Proof.
  intros l HD HN. rewrite (rebuild_ok l HD). eexists. split; [reflexivity|]. split; [now rewrite map_length, seq_length|].
  intros i a E. assert (L : (i < length l)%nat) by (apply nth_error_Some; congruence).
  exists (rebuilt l i). split; [now apply nth_error_seq_map|].
  assert (Ea : heap_of l i = a) by (unfold heap_of; now apply nth_error_nth).
  assert (Ia : In a l) by (eapply nth_error_In; exact E).
  rewrite Forall_forall in HD, HN. pose proof (HD a Ia) as D. pose proof (HN a Ia) as N.
  unfold same_action, rebuilt. rewrite Ea. cbn [pa_referenceable pa_feature pa_ref_id pa_rest pa_hold].
  repeat (split; [reflexivity|]). apply reread_same; [exact D|exact N|].
  intros r I. apply linked_spec; [lia|]. pose proof (de_refs _ D) as F. rewrite Forall_forall in F. now apply F.
Qed.

(** ** Writing the rebuilt grf *)

Lemma same_hold_refs : forall R h h', same_hold R h h' -> Forall2 R (get_refs h) (get_refs h').
Proof.
  intros R h h' H. destruct H as [rs d rs' d' F D|gs gs' F|m d m' d' F D|]; cbn [get_refs map app].
  - apply Forall2_app; [|constructor; [exact D|constructor]]. induction F as [|x y xs ys (_ & _ & P) F IH]; cbn [map]; constructor; auto.
  - exact F.
  - apply Forall2_app; [|constructor; [exact D|constructor]]. induction F as [|x y xs ys (_ & P) F IH]; cbn [map]; constructor; auto.
  - constructor.
Qed.
Lemma same_hold_referencing : forall R h h', same_hold R h h' -> referencing h' = referencing h.
Proof. intros R h h' H. now destruct H. Qed.
Lemma forall2_in_right : forall {A B} (P : A -> B -> Prop) l m y, Forall2 P l m -> In y m -> exists x, In x l /\ P x y.
Proof.
  intros A B P l m y F. induction F as [|a b l m H F IH]; intro I; [destruct I|]. destruct I as [<-|I]; [exists a; split; [now left|exact H]|].
  destruct (IH I) as (x & X & Y). exists x. split; [now right|exact Y].
Qed.

Lemma rebuilt_numbered : forall l l' ft, Forall decoded l -> length l' = length l ->
  (forall i a, nth_error l i = Some a -> exists a', nth_error l' i = Some a' /\ same_action (rebuilt_ref l i) a a') ->
  features_match l ft -> numbered_refs (fun k => to_node (heap_of l' k)) (length l') ft.
Proof.
  intros l l' ft HD EL HS HF.
  assert (At : forall i, (i < length l')%nat -> exists a, nth_error l i = Some a /\ decoded a /\ same_action (rebuilt_ref l i) a (heap_of l' i)).
  { intros i L. rewrite EL in L. destruct (nth_error l i) as [a|] eqn:E; [|apply nth_error_None in E; lia].
    exists a. split; [reflexivity|]. split; [rewrite Forall_forall in HD; apply HD; eapply nth_error_In; exact E|].
    destruct (HS i a E) as (a' & E' & S). replace (heap_of l' i) with a'; [exact S|]. symmetry. unfold heap_of. now apply nth_error_nth. }
  assert (Refs : forall i r, (i < length l')%nat -> In r (get_refs (pa_hold (heap_of l' i))) ->
     exists a r0, nth_error l i = Some a /\ In r0 (get_refs (pa_hold a)) /\ decoded_ref r0 /\ rebuilt_ref l i r0 r).
  { intros i r L I. destruct (At i L) as (a & E & D & (_ & _ & _ & _ & S)). apply same_hold_refs in S.
    destruct (forall2_in_right _ _ _ _ S I) as (r0 & I0 & P). exists a, r0. repeat (split; [assumption|]). split; [|exact P].
    pose proof (de_refs _ D) as F. rewrite Forall_forall in F. now apply F. }
  assert (Uses : forall a r, (a < length l')%nat -> uses (fun k => to_node (heap_of l' k)) a r ->
     exists b v, nth_error l a = Some b /\ In (PRef v) (get_refs (pa_hold b)) /\ Z.testbit v 15 = false /\ nearest_before l a v r).
  { intros a r L (_ & U & _). cbn [to_node n_refs] in U. apply in_map_iff in U as (x & Ex & U). destruct x as [x|x|x]; try discriminate Ex. injection Ex as ->.
    destruct (Refs a (PAct r) L U) as (b & r0 & E & I & _ & P). inversion P as [m|v B|v j B N|v B N]; subst. exists b, v. auto. }
  constructor.
  - intros a r L U. destruct (Uses a r L U) as (b & v & _ & _ & _ & (N & _)). exact N.
  - intros a L R. cbn [to_node n_referenceable n_ref_id] in *. destruct (At a L) as (b & E & D & (S1 & _ & S3 & _)).
    rewrite S1 in R. rewrite S3. pose proof (de_id _ D) as I. rewrite R in I. destruct I as (v & -> & _). discriminate.
  - intros a v j L R I C Lj Rj Ej. cbn [to_node n_refs n_referenceable n_ref_id] in *.
    apply in_map_iff in I as (x & Ex & I). destruct x as [x|x|x]; try discriminate Ex. injection Ex as ->.
    destruct (Refs a (PRef v) L I) as (b & r0 & E & I0 & D0 & P).
    assert (B : Z.testbit v 15 = false). { rewrite <- is_callback_bit. unfold is_callback. rewrite C. reflexivity. }
    inversion P as [m|w Bw|w k Bw N|w Bw N]; subst; [congruence|]. cbn [decoded_ref] in D0. rewrite ref_round in Ej by assumption.
    apply (N j Lj). destruct (At j ltac:(lia)) as (c & Ec & _ & (S1 & _ & S3 & _)). exists c. split; [exact Ec|]. split; congruence.
  - intros a L A. cbn [to_node n_feature]. unfold is_action in A. cbn [to_node n_referencing n_referenceable] in A.
    destruct (At a L) as (b & E & D & (S1 & S2 & _ & _ & S5)). rewrite (same_hold_referencing _ _ _ S5), S1 in A.
    destruct (HF a b E) as [F _]. rewrite S2. now apply F.
  - intros a r L U. destruct (Uses a r L U) as (b & v & E & I & B & N). destruct (HF a b E) as [_ F]. eapply F; eassumption.
Qed.

Lemma number_kept : forall l i r r' ids, (forall j v, carries l j v -> ids j = Some v) ->
  rebuilt_ref l i r r' -> ref_number ids r' = ref_number (fun _ => None) r.
Proof.
  intros l i r r' ids H P. destruct P as [n|v B|v j B (N & C & _)|v B N]; cbn [ref_number]; try reflexivity. now apply H.
Qed.
