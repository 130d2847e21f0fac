(** Reference resolution when everything referenced is listed earlier and
    carries its own id (C70). *)
From Coq Require Import ZArith List Bool Lia ZifyBool.
From Verif Require Import Base BaseFacts RecordsModel RecordsProofs RefsModel SpecRefs SpecGenPy RefsProofs RefsProofs2.
Import ListNotations.
Open Scope Z_scope.

Lemma acts_cons : forall g r l, acts g (r :: l) = match r with GAct r => if n_referenceable (g r) then [r] else [] | _ => [] end ++ acts g l.
Proof. reflexivity. Qed.
Lemma acts_in : forall g l r, In r (acts g l) <-> In (GAct r) l /\ n_referenceable (g r) = true.
Proof.
  intros g l r. unfold acts. rewrite in_flat_map. split.
  - intros [[x|v|] [I J]]; try destruct J. destruct (n_referenceable (g x)) eqn:E; [|destruct J]. destruct J as [<-|[]]. auto.
  - intros [I E]. exists (GAct r). split; [exact I|]. rewrite E. now left.
Qed.

Lemma getZ_none : forall {V} (l : list (Z * V)) k, ~ In k (map fst l) -> dict_get Z.eqb l k = None.
Proof.
  induction l as [|[k' v'] l IH]; intros k N; cbn [dict_get]; [reflexivity|]. cbn [map fst] in N.
  destruct (Z.eqb_spec k k') as [->|E]; [exfalso; apply N; now left|]. apply IH. intro I. apply N. now right.
Qed.
Lemma setZ_keys : forall {V} (l : list (Z * V)) k v x, In x (map fst (dict_set Z.eqb l k v)) -> x = k \/ In x (map fst l).
Proof.
  induction l as [|[k' v'] l IH]; intros k v x; cbn [dict_set map fst]; [intros [<-|[]]; auto|].
  destruct (Z.eqb_spec k k') as [->|E]; cbn [map fst]; [intros [<-|I]; auto; right; now right|].
  intros [<-|I]; [right; now left|]. destruct (IH k v x I); [now left|right; now right].
Qed.

Section Flat.
  Variable g : aid -> node.
  Variable n : nat.
  Variable ft : aid -> Z.
  Hypothesis HF : numbered_refs g n ft.

  Let isact := is_action g.

  (** *** Phase 1 *)

  Lemma flat_loop : forall rec refids s l st,
    (s < n)%nat ->
    (forall r, In (GAct r) l -> n_referenceable (g r) = true -> (r < s)%nat) ->
    (forall r, (r < s)%nat -> isact r = true -> In r (keys (r_actions st))) ->
    (forall v, In (GRef v) l -> Z.land v 32768 = 0 -> dict_get Z.eqb refids (Z.land v 32767) = None) ->
    exists st', resolve_loop g refids rec s l st = Some st' /\
      r_actions st' = r_actions st /\ r_uref st' = r_uref st /\
      (forall a, a <> s -> r_oref st' a = r_oref st a) /\
      (forall x, In x (r_oref st' s) <-> In x (r_oref st s) \/ In x (acts g l)) /\
      (forall r, r_cnt st' r = (r_cnt st r + cnt_in (acts g l) r)%nat).
  Proof.
    intros rec refids s l st Hs. revert st. induction l as [|r l IH]; intros st Hlt Hin Hno; cbn [resolve_loop].
    - exists st. split; [reflexivity|]. split; [reflexivity|]. split; [reflexivity|]. split; [reflexivity|].
      split; [intro x; cbn; tauto|]. intro r. unfold cnt_in. cbn. lia.
    - assert (Htail : forall st1, (r_actions st1 = r_actions st) ->
        exists st', resolve_loop g refids rec s l st1 = Some st' /\
          r_actions st' = r_actions st1 /\ r_uref st' = r_uref st1 /\
          (forall a, a <> s -> r_oref st' a = r_oref st1 a) /\
          (forall x, In x (r_oref st' s) <-> In x (r_oref st1 s) \/ In x (acts g l)) /\
          (forall r, r_cnt st' r = (r_cnt st1 r + cnt_in (acts g l) r)%nat)).
      { intros st1 E1. apply IH; [intros r' I R; apply Hlt; [now right|exact R]| |intros v I; apply Hno; now right].
        rewrite E1. exact Hin. }
      destruct r as [r|v|].
      + rewrite acts_cons. destruct (n_referenceable (g r)) eqn:Er; cbn [negb app].
        2: { cbn [bind]. destruct (Htail st eq_refl) as (st' & E & A). exists st'. split; [exact E|exact A]. }
        assert (L : (r < s)%nat) by (apply Hlt; [now left|exact Er]).
        replace (Nat.eqb r s) with false by (symmetry; apply Nat.eqb_neq; lia).
        assert (K : mem r (keys (r_actions (inc_cnt st r))) = true).
        { apply mem_In. cbn [inc_cnt r_actions]. apply Hin; [exact L|]. unfold isact, is_action. now rewrite Er, orb_true_r. }
        rewrite K. cbn [negb bind].
        destruct (Htail (add_oref (inc_cnt st r) s r)) as (st' & E & A1 & A2 & A3 & A4 & A5).
        { unfold add_oref. destruct (mem r (r_oref (inc_cnt st r) s)); reflexivity. }
        exists st'. split; [exact E|].
        assert (B : r_actions (add_oref (inc_cnt st r) s r) = r_actions st /\ r_uref (add_oref (inc_cnt st r) s r) = r_uref st /\
                    r_cnt (add_oref (inc_cnt st r) s r) = upd (r_cnt st) r (S (r_cnt st r))).
        { unfold add_oref. destruct (mem r (r_oref (inc_cnt st r) s)); repeat split; reflexivity. }
        destruct B as (B1 & B2 & B3). rewrite A1, A2, B1, B2. split; [reflexivity|]. split; [reflexivity|]. split; [|split].
        * intros a Na. rewrite A3 by exact Na. unfold add_oref. destruct (mem r (r_oref (inc_cnt st r) s)); [reflexivity|].
          cbn [r_oref inc_cnt]. now apply upd_neq.
        * intro x. rewrite A4. unfold add_oref. destruct (mem r (r_oref (inc_cnt st r) s)) eqn:M.
          -- cbn [r_oref inc_cnt] in *. apply mem_In in M. split; [intros [H|H]; auto; right; now right|].
             intros [H|[<-|H]]; auto.
          -- cbn [r_oref inc_cnt]. rewrite upd_eq. rewrite in_app_iff. cbn [In]. tauto.
        * intro x. rewrite A5, B3. change (r :: acts g l) with ([r] ++ acts g l). rewrite cnt_in_app, cnt_in_one.
          unfold upd. destruct (Nat.eqb x r) eqn:Ex; [apply Nat.eqb_eq in Ex; subst; lia|lia].
      + rewrite acts_cons. cbn [app].
        destruct (negb (Z.land v 32768 =? 0)) eqn:C; cbn [bind].
        * destruct (Htail st eq_refl) as (st' & E & A). exists st'. split; [exact E|exact A].
        * assert (C0 : Z.land v 32768 = 0) by lia. rewrite (Hno v (or_introl eq_refl) C0). cbn [bind].
          destruct (Htail st eq_refl) as (st' & E & A). exists st'. split; [exact E|exact A].
      + rewrite acts_cons. cbn [app bind]. destruct (Htail st eq_refl) as (st' & E & A). exists st'. split; [exact E|exact A].
  Qed.

  Record inv1 (i : nat) (refids : list (Z * aid)) (st : rstate) : Prop := {
    i_act : r_actions st = map (fun a => (a, Some a)) (filter isact (seq 0 i));
    i_uref : forall a, r_uref st a = [];
    i_oref : forall a x, In x (r_oref st a) <-> (a < i)%nat /\ uses g a x;
    i_cnt : forall r, r_cnt st r = sumf (occ g r) (filter isact (seq 0 i));
    i_ids : forall v, In v (map fst refids) -> exists j, (j < i)%nat /\ n_referenceable (g j) = true /\ n_ref_id (g j) = Some v }.

  Lemma keys_map : forall l, keys (map (fun a : aid => (a, Some a)) l) = l.
  Proof. induction l as [|a l IH]; cbn; [reflexivity|]. f_equal. exact IH. Qed.

  Lemma flat_all : forall fuel k i refids st, (i + k = n)%nat -> (0 < fuel)%nat -> inv1 i refids st ->
    exists st' refids', resolve_all fuel g i (seq i k) refids st = Some st' /\ inv1 n refids' st'.
  Proof.
    intros fuel k. induction k as [|k IH]; intros i refids st E Fu I; cbn [seq resolve_all].
    - exists st, refids. split; [reflexivity|]. replace n with i by lia. exact I.
    - destruct (n_referencing (g i) || n_referenceable (g i)) eqn:A; cbn [negb].
      2: { apply IH; [lia|exact Fu|]. destruct I as [I1 I2 I3 I4 I5]. constructor.
           - rewrite seq_S, filter_app. cbn [Nat.add filter]. unfold isact at 2, is_action. rewrite A. now rewrite app_nil_r.
           - exact I2.
           - intros a x. rewrite I3. split; [intros [L U]; split; [lia|exact U]|]. intros [L U]. split; [|exact U].
             destruct (Nat.eq_dec a i) as [->|Na]; [|lia]. destruct U as (U & _). rewrite U in A. discriminate A.
           - intro r. rewrite I4. rewrite seq_S, filter_app. cbn [Nat.add filter]. unfold isact at 3, is_action. rewrite A.
             now rewrite app_nil_r.
           - intros v V. destruct (I5 v V) as (j & L & R). exists j. split; [lia|exact R]. }
      destruct fuel as [|fu]; [lia|]. cbn [resolve].
      assert (Hn : (i < n)%nat) by lia.
      assert (S1 : exists st1, (if n_referencing (g i) then resolve_loop g refids (fun r st0 => resolve fu g refids r None st0) i (n_refs (g i)) st else Some st) = Some st1 /\
        r_actions st1 = r_actions st /\ r_uref st1 = r_uref st /\
        (forall a, a <> i -> r_oref st1 a = r_oref st a) /\
        (forall x, In x (r_oref st1 i) <-> In x (r_oref st i) \/ In x (succs g i)) /\
        (forall r, r_cnt st1 r = (r_cnt st r + cnt_in (succs g i) r)%nat)).
      { unfold succs. destruct (n_referencing (g i)) eqn:R.
        - apply flat_loop; [exact Hn| | |].
          + intros r Ir Rr. apply (nr_earlier _ _ _ HF i r); [exact Hn|]. split; [exact R|]. split; assumption.
          + intros r L Ar. rewrite (i_act _ _ _ I), keys_map. apply filter_In. split; [apply in_seq; lia|exact Ar].
          + intros v Iv C. apply getZ_none. intro K. destruct (i_ids _ _ _ I _ K) as (j & Lj & Rj & Ej).
            exact (nr_dangling _ _ _ HF i v j Hn R Iv C Lj Rj Ej).
        - exists st. split; [reflexivity|]. split; [reflexivity|]. split; [reflexivity|]. split; [reflexivity|].
      split; [intro x; cbn; tauto|]. intro r. unfold cnt_in. cbn. lia. }
      destruct S1 as (st1 & E1 & A1 & A2 & A3 & A4 & A5). rewrite E1. cbn [bind].
      assert (N1 : ~ In i (keys (r_actions st1))).
      { rewrite A1, (i_act _ _ _ I), keys_map. intro K. apply filter_In in K as [K _]. apply in_seq in K. lia. }
      rewrite (get_none _ _ N1).
      apply IH; [lia|lia|]. destruct I as [I1 I2 I3 I4 I5]. constructor.
      + unfold set_action. cbn [r_actions]. rewrite keys_set_fresh by exact N1. rewrite A1, I1.
        rewrite seq_S, filter_app. cbn [Nat.add filter]. unfold isact at 3, is_action. rewrite A.
        rewrite map_app. reflexivity.
      + intro a. unfold set_action. cbn [r_uref]. rewrite A2. apply I2.
      + intros a x. unfold set_action. cbn [r_oref]. destruct (Nat.eq_dec a i) as [->|Na].
        * rewrite A4, I3, uses_succs. split; [intros [[H _]|H]; [lia|split; [lia|exact H]]|intros [_ H]; now right].
        * rewrite A3 by exact Na. rewrite I3. split; intros [H1 H2]; (split; [lia|exact H2]).
      + intro r. unfold set_action. cbn [r_cnt]. rewrite A5, I4. rewrite seq_S, filter_app. cbn [Nat.add filter].
        unfold isact at 3, is_action. rewrite A. rewrite sumf_app. cbn [sumf fold_right]. now rewrite Nat.add_0_r.
      + intros v V. assert (C : (exists j, (j < i)%nat /\ n_referenceable (g j) = true /\ n_ref_id (g j) = Some v) ->
                               exists j, (j < S i)%nat /\ n_referenceable (g j) = true /\ n_ref_id (g j) = Some v).
        { intros (j & L & R). exists j. split; [lia|exact R]. }
        destruct (n_referenceable (g i)) eqn:R; [|apply C, I5, V].
        destruct (n_ref_id (g i)) as [w|] eqn:W; [|apply C, I5, V].
        apply setZ_keys in V as [->|V]; [|apply C, I5, V]. exists i. split; [lia|]. split; assumption.
  Qed.

  (** *** Phase 2 *)

  Variable rs : rstate.
  Variable refids : list (Z * aid).
  Hypothesis HI : inv1 n refids rs.

  Let K := filter isact (seq 0 n).
  Lemma K_nodup : NoDup K. Proof. apply NoDup_filter, seq_NoDup. Qed.
  Lemma K_in : forall a, In a K <-> (a < n)%nat /\ isact a = true.
  Proof. intro a. unfold K. rewrite filter_In, in_seq. split; intros [H1 H2]; (split; [lia|exact H2]). Qed.
  Lemma act_get : forall l a, In a l -> dict_get Nat.eqb (map (fun a : aid => (a, Some a)) l) a = Some (Some a).
  Proof.
    induction l as [|x l IH]; intros a I; [destruct I|]. cbn [map dict_get]. destruct (Nat.eqb a x) eqn:E.
    - apply Nat.eqb_eq in E. now subst.
    - apply IH. destruct I as [->|I]; [rewrite Nat.eqb_refl in E; discriminate|exact I].
  Qed.

  Record inv2 (S F : list aid) (st : dstate) : Prop := {
    j_feat : forall x, In x K -> d_feature st x = Some (ft x);
    j_featn : forall x, ~ In x K -> d_feature st x = n_feature (g x);
    j_id : forall x, d_id st x = n_ref_id (g x);
    j_vis : forall x, In x (d_visited st) <-> In x F \/ In x S;
    j_SF : forall x, In x S -> ~ In x F;
    j_FK : forall x, In x F -> In x K;
    j_linkF : forall x, In x F -> d_linked st x = [x];
    j_linkS : forall x, In x S -> d_linked st x = [];
    j_cnt : forall r, d_cnt st r = sumf (occ g r) (filter (fun x => negb (mem x F)) K);
    j_closed : forall x r, In x F -> uses g x r -> In r F }.

  Lemma release_flat : forall l st c,
    (forall r, In (GAct r) l -> n_referenceable (g r) = true -> d_id st r <> None) ->
    (forall r, d_cnt st r = (c r + cnt_in (acts g l) r)%nat) ->
    exists st', release g l st = Some st' /\ d_feature st' = d_feature st /\ d_id st' = d_id st /\
      d_linked st' = d_linked st /\ d_visited st' = d_visited st /\ (forall r, d_cnt st' r = c r).
  Proof.
    induction l as [|r l IH]; intros st c Hid Hc; cbn [release].
    - exists st. repeat split; auto. intro r. rewrite Hc. unfold cnt_in. cbn. lia.
    - destruct r as [r|v|].
      2-3: apply IH; [intros r' I; apply Hid; now right|intro r'; rewrite Hc, acts_cons; reflexivity].
      destruct (n_referenceable (g r)) eqn:R; cbn [negb].
      2: { apply IH; [intros r' I; apply Hid; now right|]. intro r'. rewrite Hc, acts_cons, R. reflexivity. }
      pose proof (Hc r) as Hr. rewrite acts_cons, R in Hr. rewrite cnt_in_app, cnt_in_one, Nat.eqb_refl in Hr.
      destruct (d_cnt st r) as [|m] eqn:Em; [lia|].
      assert (Hi : d_id st r <> None) by (apply Hid; [now left|exact R]).
      destruct (d_id st r) as [v|] eqn:Ev; [|congruence].
      assert (Hstep : forall st1, d_feature st1 = d_feature st -> d_id st1 = d_id st -> d_linked st1 = d_linked st ->
          d_visited st1 = d_visited st -> d_cnt st1 = upd (d_cnt st) r m ->
        exists st', release g l st1 = Some st' /\ d_feature st' = d_feature st /\ d_id st' = d_id st /\
          d_linked st' = d_linked st /\ d_visited st' = d_visited st /\ (forall r, d_cnt st' r = c r)).
      { intros st1 E1 E2 E3 E4 E5. destruct (IH st1 c) as (st' & E & A1 & A2 & A3 & A4 & A5).
        - intros r' I R'. rewrite E2. apply Hid; [now right|exact R'].
        - intro x. rewrite E5. unfold upd. destruct (Nat.eqb x r) eqn:Ex.
          + apply Nat.eqb_eq in Ex. subst x. lia.
          + rewrite Hc, acts_cons, R. rewrite cnt_in_app, cnt_in_one, Ex. reflexivity.
        - exists st'. rewrite <- E1, <- E2, <- E3, <- E4. repeat split; assumption. }
      destruct m as [|m]; cbn [bind]; apply Hstep; reflexivity.
  Qed.

  Lemma fold_children : forall fuel (f : Z) (a0 : aid) lk (S l F : list aid) st,
    (forall a linked F st, (a < a0)%nat -> (forall x, In x S -> (a < x)%nat) -> In a K -> ft a = f -> inv2 S F st ->
       exists st' F', dfs fuel g rs a linked f st = Some st' /\ inv2 S F' st' /\ incl F F' /\ In a F') ->
    (forall x, In x S -> (a0 <= x)%nat) ->
    (forall x, In x l -> (x < a0)%nat /\ In x K /\ ft x = f) -> inv2 S F st ->
    exists st' F', fold_opt (fun x st => dfs fuel g rs x lk f st) l st = Some st' /\ inv2 S F' st' /\ incl F F' /\ incl l F'.
  Proof.
    intros fuel f a0 lk S l. induction l as [|x l IH]; intros F st Hd HS Hl I; cbn [fold_opt].
    - exists st, F. split; [reflexivity|]. split; [exact I|]. split; [apply incl_refl|intros y []].
    - destruct (Hl x (or_introl eq_refl)) as (L & Kx & Fx).
      destruct (Hd x lk F st L) as (st1 & F1 & E1 & I1 & U1 & X1); [intros y Y; specialize (HS y Y); lia|exact Kx|exact Fx|exact I|].
      rewrite E1. cbn [bind].
      destruct (IH F1 st1 Hd HS) as (st2 & F2 & E2 & I2 & U2 & X2); [intros y Y; apply Hl; now right|exact I1|].
      exists st2, F2. split; [exact E2|]. split; [exact I2|]. split; [eapply incl_tran; eassumption|].
      intros y [<-|Y]; [apply U2, X1|apply X2, Y].
  Qed.

  Lemma uses_K : forall a r, In a K -> uses g a r -> (r < a)%nat /\ In r K /\ ft r = ft a /\ n_ref_id (g r) <> None.
  Proof.
    intros a r Ka U. apply K_in in Ka as [La Aa]. pose proof (nr_earlier _ _ _ HF a r La U) as L.
    split; [exact L|]. assert (R : n_referenceable (g r) = true) by apply U.
    split; [apply K_in; split; [lia|]; unfold isact, is_action; now rewrite R, orb_true_r|].
    split; [exact (nr_same _ _ _ HF a r La U)|]. apply (nr_ids _ _ _ HF); [lia|exact R].
  Qed.

  Lemma dfs_flat : forall fuel (a : aid) linked f (S F : list aid) st,
    (a < fuel)%nat -> (forall x, In x S -> (a < x)%nat) -> In a K -> ft a = f -> inv2 S F st ->
    exists st' F', dfs fuel g rs a linked f st = Some st' /\ inv2 S F' st' /\ incl F F' /\ In a F'.
  Proof.
    induction fuel as [|fuel IH]; intros a linked f S F st Hf HS Ka Fa I; [lia|]. cbn [dfs].
    assert (G : dict_get Nat.eqb (r_actions rs) a = Some (Some a)) by (rewrite (i_act _ _ _ HI); apply act_get; exact Ka).
    rewrite G. cbn [bind]. rewrite (j_feat _ _ _ I a Ka). unfold feature_clash. rewrite Fa, Z.eqb_refl. cbn [negb].
    destruct (mem a (d_visited st)) eqn:M.
    { apply mem_In in M. apply (j_vis _ _ _ I) in M as [M|M]; [|specialize (HS a M); lia].
      exists st, F. split; [reflexivity|]. split; [exact I|]. split; [apply incl_refl|exact M]. }
    assert (NV : ~ In a F /\ ~ In a S).
    { apply mem_notIn in M. split; intro X; apply M, (j_vis _ _ _ I); auto. }
    destruct NV as [NF NS].
    destruct (proj1 (K_in a) Ka) as [La Aa].
    assert (Q : exists reserved, (if n_referenceable (g a) then
             match d_id st a with
             | None => do (v, ids) <- pop_free (Datatypes.S (length (d_ids st))) (d_ids st) (d_reserved st); Some (Some v, ids, d_reserved st)
             | Some v => Some (Some v, d_ids st, v :: d_reserved st)
             end
           else Some (d_id st a, d_ids st, d_reserved st)) = Some (n_ref_id (g a), d_ids st, reserved)).
    { rewrite (j_id _ _ _ I). destruct (n_referenceable (g a)) eqn:R; [|eexists; reflexivity].
      pose proof (nr_ids _ _ _ HF a La R) as Hid. destruct (n_ref_id (g a)); [eexists; reflexivity|congruence]. }
    destruct Q as [reserved Q]. rewrite Q. cbn [bind]. cbn beta iota zeta. cbn [d_feature d_id d_ids d_reserved d_linked d_visited d_cnt].
    set (st0 := mkDS _ _ _ _ _ _ _).
    assert (I0 : inv2 (a :: S) F st0).
    { unfold st0. constructor; cbn [d_feature d_id d_ids d_reserved d_linked d_visited d_cnt].
      - intros x Kx. unfold upd. destruct (Nat.eqb x a) eqn:E; [apply Nat.eqb_eq in E; subst; congruence|apply (j_feat _ _ _ I), Kx].
      - intros x Kx. rewrite upd_neq by (intros ->; tauto). apply (j_featn _ _ _ I), Kx.
      - intro x. unfold upd. destruct (Nat.eqb x a) eqn:E; [apply Nat.eqb_eq in E; subst; reflexivity|apply (j_id _ _ _ I)].
      - intro x. cbn [In]. rewrite (j_vis _ _ _ I). tauto.
      - intros x [<-|X]; [exact NF|apply (j_SF _ _ _ I), X].
      - apply (j_FK _ _ _ I).
      - intros x X. rewrite upd_neq by (intros ->; tauto). apply (j_linkF _ _ _ I), X.
      - intros x [<-|X]; [apply upd_eq|]. rewrite upd_neq by (intros ->; tauto). apply (j_linkS _ _ _ I), X.
      - apply (j_cnt _ _ _ I).
      - apply (j_closed _ _ _ I). }
    destruct (fold_children fuel f a (Some a) (a :: S) (r_oref rs a) F st0) as (st1 & F1 & E1 & I1 & U1 & X1).
    { intros a' linked' F' st' L1 HS1 K1 E1 I1. apply IH; [lia|exact HS1|exact K1|exact E1|exact I1]. }
    { intros x [<-|X]; [lia|]. specialize (HS x X). lia. }
    { intros x X. apply (i_oref _ _ _ HI) in X as [_ U]. destruct (uses_K a x Ka U) as (L & Kx & Ex & _). split; [exact L|].
      split; [exact Kx|congruence]. }
    { exact I0. }
    rewrite E1. cbn [bind]. rewrite (i_uref _ _ _ HI). cbn [fold_opt bind].
    assert (NF1 : ~ In a F1) by (apply (j_SF _ _ _ I1); now left).
    set (st2 := mkDS _ _ _ _ _ _ _).
    assert (Hch : forall r, uses g a r -> In r F1).
    { intros r U. apply X1, (i_oref _ _ _ HI). split; [exact La|exact U]. }
    assert (S3 : exists st3, (if n_referencing (g a) then release g (n_refs (g a)) st2 else Some st2) = Some st3 /\
       d_feature st3 = d_feature st2 /\ d_id st3 = d_id st2 /\ d_linked st3 = d_linked st2 /\ d_visited st3 = d_visited st2 /\
       (forall r, d_cnt st3 r = sumf (occ g r) (filter (fun x => negb (mem x (F1 ++ [a]))) K))).
    { assert (C : forall r, d_cnt st2 r = (sumf (occ g r) (filter (fun x => negb (mem x (F1 ++ [a]))) K) + cnt_in (succs g a) r)%nat).
      { intro r. unfold st2. cbn [d_cnt]. rewrite (j_cnt _ _ _ I1). rewrite (sumf_split _ _ _ a K_nodup Ka NF1). unfold occ at 1. lia. }
      unfold succs in C. destruct (n_referencing (g a)) eqn:R.
      - apply release_flat; [|exact C]. intros r Ir Rr. unfold st2. cbn [d_id]. rewrite (j_id _ _ _ I1).
        apply (uses_K a r Ka). split; [exact R|]. split; assumption.
      - exists st2. repeat split; auto. intro r. rewrite C. unfold cnt_in. cbn. lia. }
    destruct S3 as (st3 & E3 & G1 & G2 & G3 & G4 & G5). rewrite E3.
    exists st3, (F1 ++ [a]). split; [reflexivity|]. split; [|split; [intros x X; apply in_or_app; left; apply U1, X|apply in_or_app; right; now left]].
    constructor.
    - intros x Kx. rewrite G1. apply (j_feat _ _ _ I1), Kx.
    - intros x Kx. rewrite G1. apply (j_featn _ _ _ I1), Kx.
    - intro x. rewrite G2. apply (j_id _ _ _ I1).
    - intro x. rewrite G4. unfold st2. cbn [d_visited]. rewrite (j_vis _ _ _ I1), in_app_iff. cbn [In]. tauto.
    - intros x X. rewrite in_app_iff. intros [Y|[<-|[]]]; [|exact (NS X)]. apply (j_SF _ _ _ I1 x); [now right|exact Y].
    - intros x X. apply in_app_iff in X as [X|[<-|[]]]; [apply (j_FK _ _ _ I1), X|exact Ka].
    - intros x X. rewrite G3. unfold st2. cbn [d_linked]. apply in_app_iff in X as [X|[<-|[]]].
      + rewrite upd_neq by (intros ->; tauto). apply (j_linkF _ _ _ I1), X.
      + rewrite upd_eq. rewrite (j_linkS _ _ _ I1) by now left. reflexivity.
    - intros x X. rewrite G3. unfold st2. cbn [d_linked]. rewrite upd_neq by (intros ->; tauto). apply (j_linkS _ _ _ I1). now right.
    - exact G5.
    - intros x r X U. apply in_app_iff in X as [X|[<-|[]]]; apply in_or_app; left; [eapply (j_closed _ _ _ I1); eassumption|apply Hch, U].
  Qed.

  Lemma inv2_start : inv2 [] [] (ds0 g rs).
  Proof.
    constructor; cbn; try tauto.
    - intros x Kx. apply K_in in Kx as [L A]. apply (nr_feature _ _ _ HF); assumption.
    - intro r. rewrite (i_cnt _ _ _ HI). f_equal. fold K. clear. induction K as [|x l IH]; cbn; [reflexivity|]. now f_equal.
  Qed.

  Lemma roots_flat : forall fuel (l F : list aid) st, (n <= fuel)%nat -> incl l K -> inv2 [] F st ->
    exists st' F', fold_opt (fun r st => do f <- n_feature (g r); dfs fuel g rs r None f st) l st = Some st' /\
      inv2 [] F' st' /\ incl F F' /\ incl l F'.
  Proof.
    intros fuel l. induction l as [|x l IH]; intros F st Hn Hl I; cbn [fold_opt].
    - exists st, F. split; [reflexivity|]. split; [exact I|]. split; [apply incl_refl|intros y []].
    - assert (Kx : In x K) by (apply Hl; now left). destruct (proj1 (K_in x) Kx) as [L A].
      rewrite (nr_feature _ _ _ HF x L A). cbn [bind].
      destruct (dfs_flat fuel x None (ft x) [] F st) as (st1 & F1 & E1 & I1 & U1 & X1); [lia|intros y []|exact Kx|reflexivity|exact I|].
      rewrite E1. cbn [bind]. destruct (IH F1 st1 Hn) as (st2 & F2 & E2 & I2 & U2 & X2); [intros y Y; apply Hl; now right|exact I1|].
      exists st2, F2. split; [exact E2|]. split; [exact I2|]. split; [eapply incl_tran; eassumption|].
      intros y [<-|Y]; [apply U2, X1|apply X2, Y].
  Qed.

  Lemma sumf_pos : forall f l, (0 < sumf f l)%nat -> exists x, In x l /\ (0 < f x)%nat.
  Proof.
    intros f. induction l as [|x l IH]; cbn [sumf fold_right]; [lia|]. fold (sumf f l). intro H.
    destruct (f x) as [|m] eqn:E; [|exists x; split; [now left|lia]]. destruct IH as (y & Y & P); [lia|]. exists y. split; [now right|exact P].
  Qed.

  Lemma all_done : forall F, incl (roots rs) F -> (forall x r, In x F -> uses g x r -> In r F) -> incl K F.
  Proof.
    intros F HR HC. assert (H : forall m a, (n - a < m)%nat -> In a K -> In a F).
    { induction m as [|m IH]; intros a L Ka; [lia|]. destruct (r_cnt rs a) as [|c] eqn:C.
      - apply HR. unfold roots. apply filter_In. rewrite (i_act _ _ _ HI), keys_map. split; [exact Ka|]. now rewrite C.
      - rewrite (i_cnt _ _ _ HI) in C. destruct (sumf_pos (occ g a) (filter isact (seq 0 n))) as (y & Y & P); [lia|].
        assert (U : uses g y a).
        { apply uses_succs. unfold occ, cnt_in in P. apply count_occ_In in P. exact P. }
        apply (HC y a); [|exact U]. destruct (uses_K y a Y U) as (Ly & _). apply IH; [|exact Y].
        apply K_in in Y as [Y _]. lia. }
    intros a Ka. exact (H (Datatypes.S (n - a)) a (Nat.lt_succ_diag_r _) Ka).
  Qed.
End Flat.

Lemma resolve_flat : forall g n ft fuel, numbered_refs g n ft -> (n < fuel)%nat ->
  exists res, resolve_refs fuel g (seq 0 n) = Some res /\ out res = seq 0 n /\
    (forall a, out_id res a = n_ref_id (g a)) /\
    (forall a, out_feature res a = n_feature (g a)).
Proof.
  intros g n ft fuel HF Hf. unfold resolve_refs.
  destruct (flat_all g n ft HF fuel n 0 [] rs0) as (rs & refids & E & HI); [lia|lia| |].
  { constructor; cbn; try tauto. intros a x. split; [intros []|intros [H _]; lia]. }
  rewrite E. cbn [bind]. unfold run_roots.
  destruct (roots_flat g n ft HF rs refids HI fuel (roots rs) [] (ds0 g rs)) as (st & F & E2 & I & _ & R).
  { lia. } { unfold roots. intros x X. apply filter_In in X as [X _]. rewrite (i_act _ _ _ _ HI), keys_map in X. exact X. }
  { apply (inv2_start g n ft HF rs refids HI). }
  rewrite E2. cbn [bind]. eexists. split; [reflexivity|]. cbn [out out_id out_feature].
  assert (D : incl (filter (is_action g) (seq 0 n)) F).
  { apply (all_done g n ft HF rs refids HI); [exact R|apply (j_closed _ _ _ _ _ _ I)]. }
  split; [|split].
  - assert (H : forall l, incl l (seq 0 n) -> flat_map (fun s => if n_referencing (g s) then d_linked st s else [s]) l = l).
    { induction l as [|x l IH]; intro L; cbn [flat_map]; [reflexivity|]. rewrite IH by (intros y Y; apply L; now right).
      destruct (n_referencing (g x)) eqn:Rx; [|reflexivity].
      rewrite (j_linkF _ _ _ _ _ _ I); [reflexivity|]. apply D, filter_In. split; [apply L; now left|]. unfold is_action. now rewrite Rx. }
    apply H, incl_refl.
  - intro a. apply (j_id _ _ _ _ _ _ I).
  - intro a. destruct (in_dec Nat.eq_dec a (filter (is_action g) (seq 0 n))) as [Ka|Ka].
    + rewrite (j_feat _ _ _ _ _ _ I a Ka). symmetry. apply filter_In in Ka as [L A]. apply (nr_feature _ _ _ HF); [apply in_seq in L; lia|exact A].
    + apply (j_featn _ _ _ _ _ _ I a Ka).
Qed.
