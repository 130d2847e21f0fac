From Coq Require Import ZArith List Bool Lia Arith.
From Verif Require Import Base BaseFacts RecordsModel IdMapProofs GenModel SpecGen.
Import ListNotations.
Open Scope Z_scope.

Lemma item_ind2 (P : item -> Prop) :
  (forall i, match i with IGen _ => False | _ => True end -> P i) -> (forall l, Forall P l -> P (IGen l)) -> forall i, P i.
Proof.
  intros H1 H2. fix IH 1. intros [a|r|r|s|s|l]; try (apply H1; exact I).
  apply H2. induction l as [|i l L]; constructor; [apply IH|exact L].
Qed.
Fixpoint run_items (fp : sid -> nat) (st : sounds) (l : list item) : sounds * list out * bool :=
  match l with
  | [] => (st, [], true)
  | i :: l =>
      let '(st, o, ok) := run_item fp st i in
      if ok then let '(st, o', ok) := run_items fp st l in (st, o ++ o', ok) else (st, o, false)
  end.
Lemma run_gen : forall fp st l, run_item fp st (IGen l) = run_items fp st l.
Proof.
  intros fp st l. revert st. induction l as [|i l IH]; intro st; [reflexivity|].
  cbn [run_items]. rewrite <- (IH (fst (fst (run_item fp st i)))) || idtac.
  change (run_item fp st (IGen (i :: l))) with
    (let '(st, o, ok) := run_item fp st i in
     if ok then let '(st, o', ok) := run_item fp st (IGen l) in (st, o ++ o', ok) else (st, o, false)).
  destruct (run_item fp st i) as [[st1 o] ok]. cbn [fst]. destruct ok; [|reflexivity]. now rewrite IH.
Qed.

Section Rel.
  Variable fp : sid -> nat.
  Variable R : sounds -> sounds -> Prop.
  Hypothesis Rr : forall a, R a a.
  Hypothesis Rt : forall a b c, R a b -> R b c -> R a c.
  Hypothesis Rs : forall a s, R a (fst (add_sound fp a s)).
  Lemma add_item_R : forall A (w : out -> A) g st i, R st (fst (fst (add_item w g fp st i))).
  Proof.
    intros A w g st [a|r|r|s|s|l]; cbn; try apply Rr. specialize (Rs st s). destruct (add_sound fp st s). exact Rs.
  Qed.
  Lemma run_item_R : forall i st, R st (fst (fst (run_item fp st i))).
  Proof.
    apply (item_ind2 (fun i => forall st, R st (fst (fst (run_item fp st i))))).
    - intros i N st. destruct i; try contradiction; apply add_item_R.
    - intros l H st. rewrite run_gen. revert st. induction H as [|i l Hi _ IH]; intro st; cbn [run_items]; [apply Rr|].
      specialize (Hi st). destruct (run_item fp st i) as [[st1 o] ok]. cbn [fst] in Hi. destruct ok; [|exact Hi].
      specialize (IH st1). destruct (run_items fp st1 l) as [[st2 o2] ok2]. cbn [fst] in *. eauto.
  Qed.
  Lemma generate_R : forall l st, R st (fst (fst (generate fp st l))).
  Proof.
    induction l as [|h l IH]; intro st; cbn [generate]; [apply Rr|]. destruct h as [o|g].
    - specialize (IH st). destruct (generate fp st l) as [[st2 o2] ok2]. exact IH.
    - pose proof (run_item_R (IGen g) st) as Q. destruct (run_item fp st (IGen g)) as [[st1 o] ok]. cbn [fst] in Q. destruct ok; [|exact Q].
      specialize (IH st1). destruct (generate fp st1 l) as [[st2 o2] ok2]. cbn [fst] in *. eauto.
  Qed.
  Lemma add_sounds_R : forall l st, R st (fst (add_sounds fp st l)).
  Proof.
    induction l as [|s l IH]; intro st; cbn [add_sounds]; [apply Rr|]. pose proof (Rs st s) as Q.
    destruct (add_sound fp st s) as [st1 ok]. cbn [fst] in Q. destruct ok; [|exact Q]. eauto.
  Qed.
  Lemma add_items_R : forall l g, R (g_sounds g) (g_sounds (fst (add_items fp g l))).
  Proof.
    induction l as [|i l IH]; intro g; cbn [add_items]; [apply Rr|]. pose proof (add_item_R held HOut HGen (g_sounds g) i) as Q.
    destruct (add_item HOut HGen fp (g_sounds g) i) as [[st h] ok]. cbn [fst] in Q. destruct ok; [|exact Q].
    exact (Rt _ _ _ Q (IH (mkGrf (g_held g ++ h) st))).
  Qed.
  Lemma write_R : forall refs g, R (g_sounds g) (g_sounds (fst (write_grf fp g refs))).
  Proof.
    intros refs g. unfold write_grf. pose proof (generate_R (g_held g) (g_sounds g)) as Q.
    destruct (generate fp (g_sounds g) (g_held g)) as [[st o] ok]. cbn [fst] in Q. destruct ok; [|exact Q].
    pose proof (add_sounds_R refs st) as Q2. destruct (add_sounds fp st refs) as [st2 ok2]. cbn [fst g_sounds] in *. eauto.
  Qed.
  Lemma grun_R : forall ops g, R (g_sounds g) (g_sounds (grun fp g ops)).
  Proof.
    unfold grun. induction ops as [|o ops IH]; intro g; cbn [fold_left]; [apply Rr|].
    eapply Rt; [|apply IH]. destruct o; [apply add_items_R|apply write_R].
  Qed.
End Rel.

(** ** The table of sounds *)
Definition sinv (fp : sid -> nat) (st : sounds) : Prop :=
  s_next st = 73 + len (s_tab st) /\ len (s_tab st) <= 183 /\ NoDup (map fst (s_tab st)) /\
  (forall k h t, nth_error (s_tab st) k = Some (h, t) -> fp t = h /\ s_ids st t = Some (73 + Z.of_nat k)) /\
  (forall s i, s_ids st s = Some i -> exists k t, nth_error (s_tab st) k = Some (fp s, t) /\ i = 73 + Z.of_nat k).
Definition sext (a b : sounds) : Prop :=
  (exists l, s_tab b = s_tab a ++ l) /\ (forall s i, s_ids a s = Some i -> s_ids b s = Some i).
Lemma sext_refl : forall a, sext a a.
Proof. intro a. split; [exists []; now rewrite app_nil_r|auto]. Qed.
Lemma sext_trans : forall a b c, sext a b -> sext b c -> sext a c.
Proof. intros a b c ([l L] & A) ([m M] & B). split; [exists (l ++ m); now rewrite M, L, app_assoc|auto]. Qed.
Lemma get_nth : forall (t : list (nat * sid)) h s, dict_get Nat.eqb t h = Some s -> exists k, nth_error t k = Some (h, s).
Proof. intros t h s H. apply (gIn Nat.eqb Nat.eqb_eq) in H. apply In_nth_error in H. exact H. Qed.
Lemma nth_get : forall (t : list (nat * sid)) k h s, NoDup (map fst t) -> nth_error t k = Some (h, s) -> dict_get Nat.eqb t h = Some s.
Proof. intros t k h s N H. apply (Ing Nat.eqb Nat.eqb_eq); [exact N|]. now apply nth_error_In in H. Qed.
Lemma set_fresh : forall (t : list (nat * sid)) h s, dict_get Nat.eqb t h = None -> dict_set Nat.eqb t h s = t ++ [(h, s)].
Proof.
  induction t as [|[k v] t IH]; intros h s H; [reflexivity|]. cbn [dict_get dict_set] in *. destruct (Nat.eqb h k); [discriminate|].
  now rewrite IH.
Qed.
Lemma key_pos : forall (t : list (nat * sid)) j k h a b, NoDup (map fst t) -> nth_error t j = Some (h, a) -> nth_error t k = Some (h, b) -> j = k.
Proof.
  intros t j k h a b N J K. apply (NoDup_nth_error (map fst t)); [exact N| |].
  - rewrite map_length. apply nth_error_Some. congruence.
  - now rewrite (map_nth_error fst _ _ J), (map_nth_error fst _ _ K).
Qed.
Lemma add_sound_spec : forall fp st s, sinv fp st ->
  let '(st', ok) := add_sound fp st s in
  sinv fp st' /\ sext st st' /\ (ok = true -> s_ids st' s <> None) /\
  (ok = false -> st' = st) /\
  (ok = false <-> dict_get Nat.eqb (s_tab st) (fp s) = None /\ len (s_tab st) = 183) /\
  (ok = true -> s_tab st' = match dict_get Nat.eqb (s_tab st) (fp s) with Some _ => s_tab st | None => s_tab st ++ [(fp s, s)] end).
Proof.
  intros fp st s (A & B & C & D & E). unfold add_sound. destruct (dict_get Nat.eqb (s_tab st) (fp s)) as [t|] eqn:G.
  - destruct (get_nth _ _ _ G) as [k K]. destruct (D k _ _ K) as [F I]. rewrite I.
    assert (W : forall x i, s_ids st x = Some i -> set_id (s_ids st) s (Some (73 + Z.of_nat k)) x = Some i).
    { intros x i X. unfold set_id. destruct (Nat.eqb_spec x s) as [->|N]; [|exact X]. destruct (E s i X) as (k' & t' & K' & ->).
      now rewrite (key_pos _ _ _ _ _ _ C K K'). }
    split; [|split; [|split; [|split; [discriminate|split; [split; [discriminate|intros [X _]; discriminate]|reflexivity]]]]].
    + split; [exact A|]. split; [exact B|]. split; [exact C|]. cbn [s_tab s_ids]. split.
      * intros k' h t' K'. destruct (D k' h t' K') as [F' I']. split; [exact F'|]. now apply W.
      * intros x i. unfold set_id. destruct (Nat.eqb_spec x s) as [->|N]; [|apply E]. intro X. apply some_inj in X. subst i. eauto.
    + split; [exists []; now rewrite app_nil_r|]. exact W.
    + intros _. cbn. unfold set_id. rewrite Nat.eqb_refl. discriminate.
  - destruct (s_next st >? 255) eqn:O; rewrite Z.gtb_ltb in O.
    + apply Z.ltb_lt in O. split; [repeat (split; [assumption|]); assumption|]. split; [apply sext_refl|]. split; [discriminate|].
      split; [auto|]. split; [|discriminate]. split; [|reflexivity]. intros _. split; [reflexivity|lia].
    + apply Z.ltb_ge in O. rewrite (set_fresh _ _ s G).
      assert (Hs : s_ids st s = None).
      { destruct (s_ids st s) as [i|] eqn:X; [|reflexivity]. destruct (E s i X) as (k & t & K & _). apply (nth_get _ _ _ _ C) in K. congruence. }
      assert (L : len (s_tab st ++ [(fp s, s)]) = len (s_tab st) + 1) by (unfold len; rewrite app_length; cbn; lia).
      split; [|split; [|split; [|split; [discriminate|split; [split; [discriminate|intros [_ X]; lia]|reflexivity]]]]].
      * split; [cbn [s_next s_tab]; lia|]. split; [cbn [s_tab]; lia|]. cbn [s_tab s_ids]. split.
        { rewrite map_app. cbn [map fst]. apply (proj1 (gNone Nat.eqb Nat.eqb_eq _ _)) in G. apply NoDup_rev in C.
          rewrite <- (rev_involutive (map fst (s_tab st) ++ [fp s])). apply NoDup_rev. rewrite rev_app_distr. cbn. constructor; [|exact C].
          now rewrite <- in_rev. }
        split.
        -- intros k h t K. destruct (lt_dec k (length (s_tab st))) as [Lk|Lk].
           ++ rewrite nth_error_app1 in K by exact Lk. destruct (D k h t K) as [F I]. split; [exact F|]. unfold set_id.
              destruct (Nat.eqb_spec t s) as [->|N]; [congruence|exact I].
           ++ rewrite nth_error_app2 in K by lia. destruct (k - length (s_tab st))%nat as [|x] eqn:X; [|destruct x; discriminate].
              cbn in K. apply some_inj in K. apply pair_inj in K as [<- <-]. split; [reflexivity|]. unfold set_id. rewrite Nat.eqb_refl. f_equal.
              unfold len in A. lia.
        -- intros x i. unfold set_id. destruct (Nat.eqb_spec x s) as [->|N].
           ++ intro X. apply some_inj in X. subst i. exists (length (s_tab st)), s. rewrite nth_error_app2, Nat.sub_diag by lia. split; [reflexivity|].
              unfold len in A. lia.
           ++ intro X. destruct (E x i X) as (k & t & K & ->). exists k, t. split; [|reflexivity]. rewrite nth_error_app1; [exact K|].
              apply nth_error_Some. congruence.
      * split; [exists [(fp s, s)]; reflexivity|]. intros x i X. cbn. unfold set_id. destruct (Nat.eqb_spec x s) as [->|N]; [congruence|exact X].
      * intros _. cbn. unfold set_id. rewrite Nat.eqb_refl. discriminate.
Qed.

Definition SR (fp : sid -> nat) (a b : sounds) : Prop := sinv fp a -> sinv fp b /\ sext a b.
Lemma SR_refl : forall fp a, SR fp a a.
Proof. intros fp a H. split; [exact H|apply sext_refl]. Qed.
Lemma SR_trans : forall fp a b c, SR fp a b -> SR fp b c -> SR fp a c.
Proof. intros fp a b c X Y H. destruct (X H) as [H1 E1]. destruct (Y H1) as [H2 E2]. split; [exact H2|]. eapply sext_trans; eauto. Qed.
Lemma SR_step : forall fp a s, SR fp a (fst (add_sound fp a s)).
Proof. intros fp a s H. pose proof (add_sound_spec fp a s H) as Q. destruct (add_sound fp a s). cbn [fst]. tauto. Qed.
Lemma grun_SR : forall fp ops g, SR fp (g_sounds g) (g_sounds (grun fp g ops)).
Proof. intros fp. apply (grun_R fp (SR fp) (SR_refl fp) (SR_trans fp) (SR_step fp)). Qed.
Lemma sinv_new : forall fp, sinv fp (g_sounds (new_grf (fun _ => None))).
Proof.
  intro fp. split; [reflexivity|]. split; [cbn; lia|]. split; [constructor|]. split; [intros k h t K; destruct k; discriminate|discriminate].
Qed.

Lemma ids_spec_g : forall fp ops1 ops2, let g1 := grun fp (new_grf (fun _ => None)) ops1 in let g2 := grun fp g1 ops2 in
  (forall s i, s_ids (g_sounds g1) s = Some i -> 73 <= i <= 255 /\ s_ids (g_sounds g2) s = Some i) /\
  (forall s t i j, s_ids (g_sounds g1) s = Some i -> s_ids (g_sounds g1) t = Some j -> (i = j <-> fp s = fp t)) /\
  (forall s i j, s_ids (g_sounds g1) s = Some i -> 73 <= j <= i -> exists t, s_ids (g_sounds g1) t = Some j) /\
  match sound_section (g_sounds g1) with
  | None => forall s, s_ids (g_sounds g1) s = None
  | Some (n, l) => n = len l /\ n <= 183 /\ NoDup (map fp l) /\
      (forall k t, nth_error l k = Some t -> s_ids (g_sounds g1) t = Some (73 + Z.of_nat k)) /\
      (forall s i, s_ids (g_sounds g1) s = Some i -> exists k t, nth_error l k = Some t /\ i = 73 + Z.of_nat k /\ fp t = fp s)
  end.
Proof.
  intros fp ops1 ops2 g1 g2. destruct (grun_SR fp ops1 _ (sinv_new fp)) as [I1 _]. fold g1 in I1.
  destruct (grun_SR fp ops2 g1 I1) as [I2 [_ X2]]. fold g2 in I2, X2. destruct I1 as (A & B & C & D & E).
  split; [|split; [|split]].
  - intros s i H. split; [|now apply X2]. destruct (E s i H) as (k & t & K & ->).
    assert (k < length (s_tab (g_sounds g1)))%nat by (apply nth_error_Some; congruence). unfold len in B. lia.
  - intros s t i j Hs Ht. destruct (E s i Hs) as (k & a & K & ->). destruct (E t j Ht) as (k' & a' & K' & ->). split.
    + intro Q. assert (k = k') by lia. subst k'. congruence.
    + intro Q. rewrite Q in K. now rewrite (key_pos _ _ _ _ _ _ C K K').
  - intros s i j H R. destruct (E s i H) as (k & t & K & ->). assert (k < length (s_tab (g_sounds g1)))%nat by (apply nth_error_Some; congruence).
    destruct (nth_error (s_tab (g_sounds g1)) (Z.to_nat (j - 73))) as [[h u]|] eqn:N.
    + destruct (D _ _ _ N) as [_ I]. exists u. rewrite I. f_equal. lia.
    + apply nth_error_None in N. lia.
  - unfold sound_section. destruct (s_tab (g_sounds g1)) as [|x tb] eqn:T.
    + intro s. destruct (s_ids (g_sounds g1) s) as [i|] eqn:H; [|reflexivity]. destruct (E s i H) as (k & t & K & _). destruct k; discriminate.
    + rewrite <- T in *. split; [unfold len; now rewrite map_length|]. split; [exact B|]. split; [|split].
      * assert (Q : map fp (map snd (s_tab (g_sounds g1))) = map fst (s_tab (g_sounds g1))).
        { rewrite map_map. apply map_ext_in. intros [h t] I. apply In_nth_error in I as [k K]. destruct (D k h t K) as [F _]. exact F. }
        rewrite Q. exact C.
      * intros k t K. rewrite nth_error_map in K. destruct (nth_error (s_tab (g_sounds g1)) k) as [[h u]|] eqn:N; [|discriminate].
        apply some_inj in K. cbn in K. subst u. now apply (D k h t).
      * intros s i H. destruct (E s i H) as (k & t & K & ->). exists k, t. rewrite (map_nth_error snd _ _ K). destruct (D k _ _ K) as [F _]. auto.
Qed.

Lemma refused_spec : forall fp ops s, let g := grun fp (new_grf (fun _ => None)) ops in
  let '(g', ok) := add_items fp g [ISound s] in
  (ok = false <-> (forall t, s_ids (g_sounds g) t <> None -> fp t <> fp s) /\ (exists t, s_ids (g_sounds g) t = Some 255)) /\
  (ok = false -> g' = g) /\ (ok = true -> s_ids (g_sounds g') s <> None).
Proof.
  intros fp ops s g. destruct (grun_SR fp ops _ (sinv_new fp)) as [I _]. fold g in I.
  cbn [add_items add_item]. pose proof (add_sound_spec fp (g_sounds g) s I) as Q. destruct (add_sound fp (g_sounds g) s) as [st ok].
  destruct Q as (Q1 & Q2 & Q3 & Q4 & Q5 & _). rewrite app_nil_r.
  assert (W : ok = false <-> (forall t, s_ids (g_sounds g) t <> None -> fp t <> fp s) /\ (exists t, s_ids (g_sounds g) t = Some 255)).
  { rewrite Q5. destruct I as (A & B & C & D & E). split.
    - intros [G L]. split.
      + intros t N Ft. destruct (s_ids (g_sounds g) t) as [i|] eqn:T; [|congruence]. destruct (E t i T) as (k & u & K & _).
        apply (nth_get _ _ _ _ C) in K. rewrite Ft in K. congruence.
      + destruct (nth_error (s_tab (g_sounds g)) 182) as [[h u]|] eqn:N.
        * exists u. destruct (D _ _ _ N) as [_ I]. exact I.
        * apply nth_error_None in N. unfold len in L. lia.
    - intros [N [t T]]. split.
      + destruct (dict_get Nat.eqb (s_tab (g_sounds g)) (fp s)) as [u|] eqn:G; [|reflexivity]. exfalso.
        destruct (get_nth _ _ _ G) as [k K]. destruct (D k _ _ K) as [F I]. apply (N u); congruence.
      + destruct (E t 255 T) as (k & u & K & Ek). assert (k < length (s_tab (g_sounds g)))%nat by (apply nth_error_Some; congruence).
        unfold len in *. lia. }
  destruct ok; cbn [add_items].
  - split; [exact W|]. split; [discriminate|]. intros _. apply Q3. reflexivity.
  - split; [exact W|]. split; [|discriminate]. intros _. destruct g as [h gs]. rewrite (Q4 eq_refl). reflexivity.
Qed.

(** ** Everything added comes out *)
Section Ok.
  Variable fp : sid -> nat.
  Variable all : list sid.
  Hypothesis small : (distinct fp all <= 183)%nat.
  Definition within (st : sounds) : Prop := sinv fp st /\ incl (map fst (s_tab st)) (map fp all).
  Lemma add_sound_ok : forall st s, within st -> In s all ->
    let '(st', ok) := add_sound fp st s in ok = true /\ within st' /\ sext st st' /\ s_ids st' s <> None.
  Proof.
    intros st s [I W] A. pose proof (add_sound_spec fp st s I) as Q. destruct (add_sound fp st s) as [st' ok].
    destruct Q as (Q1 & Q2 & Q3 & Q4 & Q5 & Q6).
    assert (ok = true).
    { destruct ok; [reflexivity|]. exfalso. destruct (proj1 Q5 eq_refl) as [G L]. destruct I as (_ & _ & C & _).
      assert (N : NoDup (fp s :: map fst (s_tab st))) by (constructor; [now apply (gNone Nat.eqb Nat.eqb_eq)|exact C]).
      assert (J : incl (fp s :: map fst (s_tab st)) (nodup Nat.eq_dec (map fp all))).
      { intros x X. apply nodup_In. destruct X as [<-|X]; [now apply in_map|now apply W]. }
      pose proof (NoDup_incl_length N J) as Le. unfold distinct in small. cbn [length] in Le. rewrite map_length in Le. unfold len in L. lia. }
    subst ok. split; [reflexivity|]. split; [split; [exact Q1|]|split; [exact Q2|now apply Q3]]. rewrite (Q6 eq_refl).
    destruct (dict_get Nat.eqb (s_tab st) (fp s)); [exact W|]. rewrite map_app. intros x X. apply in_app_iff in X as [X|[<-|[]]]; [now apply W|].
    cbn [fst]. now apply in_map.
  Qed.
  Definition fine (st st' : sounds) (l : list sid) : Prop := within st' /\ sext st st' /\ forall s, In s l -> s_ids st' s <> None.
  Lemma sext_ids : forall a b s, sext a b -> s_ids a s <> None -> s_ids b s <> None.
  Proof. intros a b s [_ X] N. destruct (s_ids a s) as [i|] eqn:E; [|congruence]. rewrite (X s i E). discriminate. Qed.
  Lemma fine_app : forall a b c l m, fine a b l -> fine b c m -> fine a c (l ++ m).
  Proof.
    intros a b c l m (W1 & E1 & S1) (W2 & E2 & S2). split; [exact W2|]. split; [eapply sext_trans; eauto|].
    intros s H. apply in_app_iff in H as [H|H]; [|now apply S2]. eapply sext_ids; [exact E2|now apply S1].
  Qed.
  Lemma fine_nil : forall a, within a -> fine a a [].
  Proof. intros a W. split; [exact W|]. split; [apply sext_refl|intros s []]. Qed.
  Lemma run_item_ok : forall i st, within st -> item_plain i = true -> incl (item_sounds i) all ->
    exists st', run_item fp st i = (st', item_outs i, true) /\ fine st st' (item_sounds i).
  Proof.
    apply (item_ind2 (fun i => forall st, within st -> item_plain i = true -> incl (item_sounds i) all ->
      exists st', run_item fp st i = (st', item_outs i, true) /\ fine st st' (item_sounds i))).
    - intros i N st W P A. destruct i; try contradiction; try discriminate; cbn [run_item add_item item_outs item_sounds];
        try (exists st; split; [reflexivity|now apply fine_nil]).
      pose proof (add_sound_ok st s W (A s (or_introl eq_refl))) as Q. destruct (add_sound fp st s) as [st' ok].
      destruct Q as (-> & W' & E & S). exists st'. split; [reflexivity|]. split; [exact W'|]. split; [exact E|]. intros x [<-|[]]. exact S.
    - intros l H st W P A. rewrite run_gen. cbn [item_outs item_sounds item_plain] in *. revert st W P A.
      induction H as [|i l Hi _ IH]; intros st W P A; cbn [run_items flat_map forallb] in *.
      + exists st. split; [reflexivity|now apply fine_nil].
      + apply andb_true_iff in P as [P1 P2]. destruct (Hi st W P1) as (st1 & E1 & F1); [intros x X; apply A; apply in_or_app; now left|].
        rewrite E1. destruct (IH st1 (proj1 F1) P2) as (st2 & E2 & F2); [intros x X; apply A; apply in_or_app; now right|].
        rewrite E2. exists st2. split; [reflexivity|]. eapply fine_app; eauto.
  Qed.
  (** What is held stands for [outs] and [snds]. *)
  Fixpoint held_outs (l : list held) : list out := match l with [] => [] | HOut o :: l => o :: held_outs l | HGen g :: l => flat_map item_outs g ++ held_outs l end.
  Fixpoint held_sounds (l : list held) : list sid := match l with [] => [] | HOut o :: l => held_sounds l | HGen g :: l => flat_map item_sounds g ++ held_sounds l end.
  Fixpoint held_plain (l : list held) : bool := match l with [] => true | HOut o :: l => held_plain l | HGen g :: l => forallb item_plain g && held_plain l end.
  Lemma held_app : forall a b, held_outs (a ++ b) = held_outs a ++ held_outs b /\ held_sounds (a ++ b) = held_sounds a ++ held_sounds b /\
    held_plain (a ++ b) = held_plain a && held_plain b.
  Proof.
    induction a as [|[o|g] a IH]; intro b; [auto| |]; cbn [app held_outs held_sounds held_plain]; destruct (IH b) as (-> & -> & ->); [auto|].
    now rewrite !app_assoc, andb_assoc.
  Qed.
  Lemma generate_ok : forall l st, within st -> held_plain l = true -> incl (held_sounds l) all ->
    exists st', generate fp st l = (st', held_outs l, true) /\ fine st st' (held_sounds l).
  Proof.
    induction l as [|[o|g] l IH]; intros st W P A; cbn [generate held_outs held_sounds held_plain] in *.
    - exists st. split; [reflexivity|now apply fine_nil].
    - destruct (IH st W P A) as (st' & E & F). rewrite E. exists st'. split; [reflexivity|exact F].
    - apply andb_true_iff in P as [P1 P2].
      destruct (run_item_ok (IGen g) st W P1) as (st1 & E1 & F1); [intros x X; apply A; apply in_or_app; now left|].
      rewrite E1. destruct (IH st1 (proj1 F1) P2) as (st2 & E2 & F2); [intros x X; apply A; apply in_or_app; now right|].
      rewrite E2. exists st2. split; [reflexivity|]. exact (fine_app _ _ _ _ _ F1 F2).
  Qed.
  Lemma add_sounds_ok : forall l st, within st -> incl l all -> exists st', add_sounds fp st l = (st', true) /\ fine st st' l.
  Proof.
    induction l as [|s l IH]; intros st W A; cbn [add_sounds]; [exists st; split; [reflexivity|now apply fine_nil]|].
    pose proof (add_sound_ok st s W (A s (or_introl eq_refl))) as Q. destruct (add_sound fp st s) as [st1 ok]. destruct Q as (-> & W1 & E1 & S1).
    destruct (IH st1 W1) as (st2 & E2 & F2); [intros x X; apply A; now right|]. rewrite E2. exists st2. split; [reflexivity|].
    apply (fine_app st st1 st2 [s] l); [|exact F2]. split; [exact W1|]. split; [exact E1|]. intros x [<-|[]]. exact S1.
  Qed.
  Definition gok (g : grf) (its : list item) : Prop :=
    within (g_sounds g) /\ held_plain (g_held g) = true /\ held_outs (g_held g) = flat_map item_outs its /\
    (forall s, In s (flat_map item_sounds its) -> In s (held_sounds (g_held g)) \/ s_ids (g_sounds g) s <> None) /\
    incl (held_sounds (g_held g)) (flat_map item_sounds its).
  Lemma add_items_ok : forall l g its, gok g its -> forallb item_plain l = true -> incl (flat_map item_sounds l) all ->
    exists g', add_items fp g l = (g', true) /\ gok g' (its ++ l).
  Proof.
    induction l as [|i l IH]; intros g its G P A; cbn [add_items forallb] in *.
    - exists g. rewrite app_nil_r. split; [reflexivity|exact G].
    - apply andb_true_iff in P as [P1 P2].
      assert (Q : exists st h, add_item HOut HGen fp (g_sounds g) i = (st, h, true) /\ gok (mkGrf (g_held g ++ h) st) (its ++ [i])).
      { destruct G as (W & HP & HO & HS & HI).
        assert (base : forall h, held_plain h = true -> held_outs h = item_outs i -> held_sounds h = item_sounds i -> gok (mkGrf (g_held g ++ h) (g_sounds g)) (its ++ [i])).
        { intros h X1 X2 X3. destruct (held_app (g_held g) h) as (Y1 & Y2 & Y3). split; [exact W|]. cbn [g_held g_sounds]. rewrite Y1, Y2, Y3, HP, HO, X1, X2, X3.
          rewrite !flat_map_app. cbn [flat_map]. rewrite !app_nil_r. split; [reflexivity|]. split; [reflexivity|]. split.
          - intros s S. apply in_app_iff in S as [S|S]; [destruct (HS s S); [left; apply in_or_app; now left|now right]|]. left. apply in_or_app. now right.
          - intros s S. apply in_app_iff in S as [S|S]; apply in_or_app; [left; now apply HI|now right]. }
        destruct i as [a|r|r|s|s|gl]; try discriminate; cbn [add_item].
        - exists (g_sounds g), [HOut (OAction a)]. split; [reflexivity|]. apply base; reflexivity.
        - exists (g_sounds g), [HOut (OResource r)]. split; [reflexivity|]. apply base; reflexivity.
        - pose proof (add_sound_ok (g_sounds g) s W (A s (or_introl eq_refl))) as Q.
          destruct (add_sound fp (g_sounds g) s) as [st ok]. destruct Q as (-> & W1 & E1 & S1). exists st, []. split; [reflexivity|].
          rewrite app_nil_r. split; [exact W1|]. cbn [g_held g_sounds]. rewrite !flat_map_app. cbn [flat_map item_outs item_sounds]. rewrite !app_nil_r.
          split; [exact HP|]. split; [exact HO|]. split.
          + intros x X. apply in_app_iff in X as [X|[<-|[]]]; [|now right]. destruct (HS x X); [now left|right; eapply sext_ids; eauto].
          + intros x X. apply in_or_app. left. now apply HI.
        - exists (g_sounds g), [HGen gl]. split; [reflexivity|]. apply base; cbn; rewrite ?app_nil_r, ?andb_true_r; try reflexivity. exact P1. }
      destruct Q as (st & h & E & G1). rewrite E. destruct (IH _ _ G1 P2) as (g' & E' & G2); [intros x X; apply A; apply in_or_app; now right|].
      exists g'. split; [exact E'|]. rewrite <- app_assoc in G2. exact G2.
  Qed.
  Lemma write_ok : forall g its refs, gok g its -> incl (flat_map item_sounds its) all -> incl refs all ->
    exists st, write_grf fp g refs = (mkGrf (g_held g) st, Some (flat_map item_outs its, sound_section st)) /\
      gok (mkGrf (g_held g) st) its /\ (forall s, In s (flat_map item_sounds its ++ refs) -> s_ids st s <> None).
  Proof.
    intros g its refs (W & HP & HO & HS & HI) A B. unfold write_grf.
    destruct (generate_ok (g_held g) (g_sounds g) W HP) as (st1 & E1 & W1 & X1 & S1); [intros x X; apply A; now apply HI|].
    rewrite E1. destruct (add_sounds_ok refs st1 W1 B) as (st2 & E2 & W2 & X2 & S2). rewrite E2. exists st2. rewrite HO. split; [reflexivity|].
    split.
    - split; [exact W2|]. cbn [g_held g_sounds]. split; [exact HP|]. split; [exact HO|]. split; [|exact HI].
      intros s S. destruct (HS s S) as [H|H]; [now left|right]. eapply sext_ids; [exact X2|]. eapply sext_ids; eauto.
    - intros s S. apply in_app_iff in S as [S|S]; [|now apply S2]. eapply sext_ids; [exact X2|].
      destruct (HS s S) as [H|H]; [now apply S1|]. eapply sext_ids; eauto.
  Qed.
  Lemma added_sounds : forall ops, incl (flat_map item_sounds (added ops)) (flat_map op_sounds ops).
  Proof.
    induction ops as [|o ops IH]; intros s S; [contradiction|]. cbn in S. unfold added in S. cbn [flat_map] in S. rewrite flat_map_app in S.
    apply in_app_iff in S as [S|S]; cbn; apply in_or_app; [left|right; now apply IH]. destruct o; [exact S|contradiction].
  Qed.
  Lemma grun_ok : forall ops g its, gok g its -> forallb item_plain (added ops) = true -> incl (flat_map op_sounds ops) all ->
    incl (flat_map item_sounds its) all -> gok (grun fp g ops) (its ++ added ops).
  Proof.
    induction ops as [|o ops IH]; intros g its G P A B.
    - cbn. rewrite app_nil_r. exact G.
    - unfold added in P. cbn [flat_map] in P. rewrite forallb_app in P. apply andb_true_iff in P as [P1 P2]. cbn [flat_map] in A.
      unfold grun. cbn [fold_left]. fold (grun fp (gstep fp g o) ops). destruct o as [l|refs]; cbn [gstep].
      + destruct (add_items_ok l g its G P1) as (g' & E & G'); [intros x X; apply A; apply in_or_app; now left|].
        rewrite E. cbn [fst]. unfold added. cbn [flat_map]. fold (added ops). rewrite app_assoc. apply IH; [exact G'|exact P2| |].
        * intros x X. apply A. apply in_or_app. now right.
        * intros x X. rewrite flat_map_app in X. apply in_app_iff in X as [X|X]; [now apply B|]. apply A. apply in_or_app. now left.
      + destruct (write_ok g its refs G B) as (st & E & G' & _); [intros x X; apply A; apply in_or_app; now left|].
        rewrite E. cbn [fst]. unfold added. cbn [flat_map app]. fold (added ops). apply IH; [exact G'|exact P2| |exact B].
        intros x X. apply A. apply in_or_app. now right.
  Qed.
End Ok.
Lemma all_spec : forall fp ops refs, forallb item_plain (added ops) = true ->
  (distinct fp (flat_map op_sounds ops ++ refs) <= 183)%nat ->
  exists g sec, write_grf fp (grun fp (new_grf (fun _ => None)) ops) refs = (g, Some (flat_map item_outs (added ops), sec)) /\
    sec = sound_section (g_sounds g) /\
    (forall s, In s (flat_map item_sounds (added ops) ++ refs) -> s_ids (g_sounds g) s <> None).
Proof.
  intros fp ops refs P D. set (all := flat_map op_sounds ops ++ refs) in *.
  assert (G0 : gok fp all (new_grf (fun _ => None)) []).
  { split; [split; [apply sinv_new|intros x []]|]. split; [reflexivity|]. split; [reflexivity|]. split; [intros s []|intros s []]. }
  pose proof (grun_ok fp all D ops _ _ G0 P) as G. cbn [app] in G.
  destruct (write_ok fp all D _ _ refs (G (fun x X => in_or_app _ _ _ (or_introl X)) (fun x X => match X with end))) as (st & E & _ & S).
  - intros x X. apply in_or_app. left. now apply added_sounds.
  - intros x X. apply in_or_app. now right.
  - exists (mkGrf (g_held (grun fp (new_grf (fun _ => None)) ops)) st), (sound_section st). auto.
Qed.
