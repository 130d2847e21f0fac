(** Reference resolution succeeds: well-formed inputs are never rejected. *)
From Coq Require Import ZArith List Bool Lia ZifyBool.
From Verif Require Import Base BaseFacts RecordsModel RecordsProofs RefsModel SpecRefs RefsProofs RefsProofs2 RefsProofs3.
Import ListNotations.
Open Scope Z_scope.

Section P4.
  Variable g : aid -> node.
  Variable listed : list aid.
  Hypothesis Hin : inline_refs g listed.
  Variable rank : aid -> nat.
  Hypothesis Hrank : forall a r, uses g a r -> (rank r < rank a)%nat.
  Variable ft : aid -> Z.
  Hypothesis Hft : features_agree g listed ft.
  Variable few : list aid.
  Hypothesis Hfew : (length few <= 255)%nat.
  Hypothesis Hall : forall a, needed g listed a -> n_referenceable (g a) = true -> In a few.
  Notation need := (needed g listed).

  Lemma loop_total : forall refids rec s l st, n_referencing (g s) = true ->
    (forall r st, uses g s r -> exists st', rec r st = Some st') ->
    (forall r, In r l -> In r (n_refs (g s))) -> exists st', resolve_loop g refids rec s l st = Some st'.
  Proof.
    intros refids rec s l st R Hrec. revert st. induction l as [|r l IH]; intros st Sub; cbn [resolve_loop]; [eauto|].
    match goal with |- exists _, bind ?m _ = _ => assert (X : exists st2, m = Some st2) end.
    { destruct r as [r|v|]; [|destruct (negb _); [eauto|]; destruct (dict_get _ _ _); eauto|eauto].
      destruct (n_referenceable (g r)) eqn:RR; cbn [negb]; [|eauto].
      assert (U : uses g s r) by (repeat split; [assumption|apply Sub; now left|assumption]).
      destruct (Nat.eqb r s) eqn:E; [apply Nat.eqb_eq in E; subst; pose proof (Hrank _ _ U); lia|]. cbv zeta.
      destruct (negb _); [now apply Hrec|eauto]. }
    destruct X as [st2 E]. rewrite E. cbn [bind]. apply IH. intros; apply Sub; now right.
  Qed.

  Lemma resolve_total : forall fuel refids s st, (rank s < fuel)%nat -> exists st', resolve fuel g refids s None st = Some st'.
  Proof.
    induction fuel as [|fuel IH]; intros refids s st H; [lia|]. cbn [resolve].
    assert (X : exists st1, (if n_referencing (g s)
                then resolve_loop g refids (fun r st => resolve fuel g refids r None st) s (n_refs (g s)) st else Some st) = Some st1).
    { destruct (n_referencing (g s)) eqn:R; [|eauto]. apply loop_total; auto.
      intros r st' U. apply IH. pose proof (Hrank _ _ U). lia. }
    destruct X as [st1 E]. rewrite E. cbn [bind]. destruct (dict_get _ _ _) as [[p|]|]; eauto.
  Qed.

  Lemma resolve_listed_total : forall fuel refids s i st pr, (rank s < fuel)%nat -> In s listed -> ~ In s pr -> inv1 g listed pr st ->
    exists st', resolve fuel g refids s (Some i) st = Some st'.
  Proof.
    intros fuel refids s i st pr H Hl Hp [INd IL IF IR IC ICl ICn II IIl IW].
    destruct (IR s Hl Hp) as [Hb Hnk]. assert (Hn : need s) by (now apply need_listed).
    destruct fuel as [|fuel]; [lia|]. cbn [resolve].
    assert (X : exists st1, (if n_referencing (g s)
                then resolve_loop g refids (fun r st => resolve fuel g refids r None st) s (n_refs (g s)) st else Some st) = Some st1).
    { destruct (n_referencing (g s)) eqn:R; [|eauto]. apply loop_total; auto.
      intros r st' U. apply resolve_total. pose proof (Hrank _ _ U). lia. }
    destruct X as [st1 H1]. rewrite H1. cbn [bind].
    assert (L : exists N, added g listed s (succs g s) st st1 N /\ ~ In s N).
    { unfold succs. destruct (n_referencing (g s)) eqn:R;
        [|apply some_inj in H1; subst st1; exists []; split; [apply added_refl|intros []]].
      apply (loop_spec g listed Hin refids (fun r st => resolve fuel g refids r None st) (resolve_spec g listed Hin fuel refids) s (n_refs (g s)) st st1); auto. }
    destruct L as [N [A S]].
    assert (Sk : ~ In s (keys (r_actions st1))) by (rewrite (ad_keys _ _ _ _ _ _ _ A); intro I; apply in_app_or in I as [I|I]; tauto).
    rewrite (get_none (r_actions st1) s Sk). eauto.
  Qed.

  Lemma resolve_all_total : forall fuel sprites i refids st pr, (forall s, In s sprites -> (rank s < fuel)%nat) -> incl sprites listed ->
    NoDup (pr ++ filter (is_action g) sprites) -> inv1 g listed pr st -> exists st', resolve_all fuel g i sprites refids st = Some st'.
  Proof.
    intros fuel sprites. induction sprites as [|s rest IH]; intros i refids st pr Hf Sub ND I; cbn [resolve_all filter] in *; [eauto|].
    fold (is_action g s). destruct (is_action g s) eqn:E; cbn [negb].
    - assert (Np : ~ In s pr) by (apply NoDup_remove_2 in ND; intro J; apply ND; apply in_or_app; now left).
      destruct (resolve_listed_total fuel refids s i st pr (Hf s (or_introl eq_refl)) (Sub s (or_introl eq_refl)) Np I) as [st1 H1]. rewrite H1. cbn [bind]. cbv zeta.
      apply (IH _ _ _ (pr ++ [s])).
      + intros; apply Hf; now right.
      + intros x J. apply Sub. now right.
      + now rewrite <- app_assoc.
      + exact (resolve_listed g listed Hin fuel refids s i st st1 pr H1 (Sub s (or_introl eq_refl)) Np I).
    - apply (IH _ _ _ pr); auto; [intros; apply Hf; now right|]. intros x J. apply Sub. now right.
  Qed.

  (** Phase 2. *)
  Variable rs : rstate.
  Hypothesis G : graph g listed rs.
  Notation K := (keys (r_actions rs)).

  Lemma release_total : forall l st, heap_ok g listed st ->
    (forall r, In r (acts g l) -> In r (d_visited st) /\ ~ In r listed /\ n_referenceable (g r) = true) ->
    (forall r, (cnt_in (acts g l) r <= d_cnt st r)%nat) -> exists st', release g l st = Some st'.
  Proof.
    induction l as [|r l IH]; intros st Hh Hl Hc; cbn [release]; [eauto|].
    destruct r as [r|v|]; [|now apply IH|now apply IH].
    cbn [acts flat_map] in Hl, Hc. destruct (n_referenceable (g r)) eqn:R; cbn [negb]; [|now apply IH].
    fold (acts g l) in *. pose proof (Hc r) as C. rewrite cnt_in_app, cnt_in_one, Nat.eqb_refl in C.
    destruct (Hl r) as (Hv & Hu & _); [apply in_or_app; left; now left|].
    destruct (h_ref _ _ _ Hh r Hv R) as (v & Ev & _).
    destruct (d_cnt st r) as [|c] eqn:Ec; [lia|].
    set (st1o := match c with O => _ | _ => _ end).
    assert (X : exists st1, st1o = Some st1) by (unfold st1o; destruct c; [rewrite Ev; cbn [bind]|]; eauto).
    destruct X as [st1 E1].
    assert (RS : release g [GAct r] st = Some st1).
    { cbn [release]. rewrite R, Ec. cbn [negb]. fold st1o. rewrite E1. reflexivity. }
    rewrite E1. cbn [bind].
    destruct (release_spec g listed rank Hrank [GAct r] st st1 RS Hh) as (B1 & B2 & _ & _ & _ & B6).
    { intros x X. cbn [acts flat_map] in X. rewrite R in X. destruct X as [<-|[]]. auto. }
    apply IH; [exact B1| |].
    - intros x X. rewrite B2. apply Hl, in_or_app. now right.
    - intro x. specialize (B6 x). specialize (Hc x). rewrite cnt_in_app in Hc. cbn [acts flat_map] in B6. rewrite R, app_nil_r in B6. lia.
  Qed.

  (** Ids do not run out, and the features agree. *)
  Record inv3 (st : dstate) : Prop := {
    w_vn : NoDup (d_visited st);
    w_ids : (255 <= length (d_ids st) + length (filter (fun x => n_referenceable (g x)) (d_visited st)))%nat;
    w_ft : forall x f, need x -> d_feature st x = Some f -> f = ft x }.

  Lemma release_inv3 : forall l st st', release g l st = Some st' -> inv3 st -> inv3 st'.
  Proof.
    induction l as [|r l IH]; intros st st' H I; cbn [release] in H; [now apply some_inj in H; subst|].
    destruct r as [r|v|]; [|eauto|eauto]. destruct (negb _); [eauto|]. destruct (d_cnt st r) as [|c]; [discriminate|].
    bnd H st1 H1. apply (IH _ _ H). destruct I as [W0 W1 W2]. destruct c as [|c].
    - bnd H1 v Hv. apply some_inj in H1. subst st1. constructor; cbn [d_ids d_visited d_feature]; auto.
      destruct (memZ _ _); cbn [length]; lia.
    - apply some_inj in H1. subst st1. constructor; auto.
  Qed.
  Lemma remove1_length : forall m l, In m l -> S (length (remove1 m l)) = length l.
  Proof.
    induction l as [|y l IH]; intro I; [destruct I|]. cbn [remove1]. destruct (y =? m) eqn:E; [reflexivity|].
    cbn [length]. f_equal. apply IH. destruct I as [I|I]; [lia|exact I].
  Qed.
  Lemma pop_free_length : forall ids v ids', pop_free (S (length ids)) ids [] = Some (v, ids') -> S (length ids') = length ids.
  Proof.
    intros ids v ids' H. cbn [pop_free] in H. destruct ids as [|i ids]; cbn [pop_min] in H; [discriminate|].
    cbn [memZ existsb] in H. apply some_inj, pair_inj in H as [_ <-]. apply remove1_length, min_of_in.
  Qed.
  Lemma pop_free_total : forall ids, ids <> [] -> exists p, pop_free (S (length ids)) ids [] = Some p.
  Proof. intros [|i ids] H; [congruence|]. cbn [pop_free pop_min memZ existsb]. eauto. Qed.

  Lemma ft_uses : forall a r, need a -> uses g a r -> ft r = ft a.
  Proof. intros a r N U. exact (fa_uses _ _ _ Hft a r N U). Qed.

  Lemma fold_total : forall (step : aid -> dstate -> option dstate) S (C : list aid),
    (forall a F st, In a C -> inv2 g listed rs F S st -> inv3 st -> exists st' F', step a st = Some st' /\ inv3 st' /\ inv2 g listed rs (F ++ F') S st') ->
    forall l F st, incl l C -> inv2 g listed rs F S st -> inv3 st ->
    exists st', fold_opt step l st = Some st' /\ inv3 st'.
  Proof.
    intros step S C Hs. induction l as [|a l IH]; intros F st Hl I J; cbn [fold_opt]; [eauto|].
    destruct (Hs a F st (Hl a (or_introl eq_refl)) I J) as (st1 & F1 & E1 & J1 & I1). rewrite E1. cbn [bind].
    apply (IH (F ++ F1)); auto. intros x X. apply Hl. now right.
  Qed.

  Lemma dfs_total : forall fuel a o f st F S, (rank a < fuel)%nat -> In a K -> inv2 g listed rs F S st -> inv3 st -> f = ft a ->
    (forall y, In y S -> (rank a < rank y)%nat) -> (In a listed -> ~ In a (d_visited st)) ->
    (In a listed -> is_action g a = true) -> (~ In a listed -> o <> None) ->
    exists st', dfs fuel g rs a o f st = Some st' /\ inv3 st'.
  Proof.
    induction fuel as [|fuel IH]; intros a o f st F S Hfu Ka I J Ef Hr Hv Hact Ho; [lia|].
    pose proof (proj2 (gr_covers _ _ _ G a Ka)) as Na.
    assert (Gai : exists ai, dict_get Nat.eqb (r_actions rs) a = Some ai /\ (match ai with Some _ => Some a | None => o end) = (if mem a listed then Some a else o)
       /\ (match ai with Some _ => true | None => false end) = mem a listed).
    { destruct (mem a listed) eqn:M.
      - apply mem_In in M. destruct (gr_infol _ _ _ G a M (Hact M)) as [_ [i Ei]]. exists (Some i). auto.
      - apply mem_notIn in M. exists None. rewrite (gr_info _ _ _ G a Ka M). auto. }
    destruct Gai as (ai & Eai & Ew' & Eai'). cbn [dfs]. rewrite Eai. cbn [bind].
    assert (FC : feature_clash (d_feature st a) f = false).
    { destruct (d_feature st a) as [f'|] eqn:E; [|reflexivity]. cbn [feature_clash]. rewrite (w_ft _ J a f' Na E), Ef, Z.eqb_refl. reflexivity. }
    rewrite FC. destruct (mem a (d_visited st)) eqn:MV; [eauto|]. apply mem_notIn in MV.
    assert (W : exists w, (if mem a listed then Some a else o) = Some w).
    { destruct (mem a listed) eqn:M; [eauto|]. apply mem_notIn in M. destruct o as [w|]; [eauto|]. exfalso. now apply (Ho M). }
    destruct W as [w Hw]. rewrite Hw in Ew'. rewrite Ew'.
    pose proof (v_heap _ _ _ _ _ _ I) as HO.
    assert (Ea : d_id st a = None) by (rewrite (h_none _ _ _ HO a MV); exact (ir_noid _ _ Hin a Na)).
    pose proof (h_res _ _ _ HO) as R0.
    set (po := if n_referenceable (g a) then
             match d_id st a with
             | None => do (v, ids) <- pop_free (Datatypes.S (length (d_ids st))) (d_ids st) (d_reserved st); Some (Some v, ids, d_reserved st)
             | Some v => Some (Some v, d_ids st, v :: d_reserved st)
             end
           else Some (d_id st a, d_ids st, d_reserved st)).
    assert (VK : NoDup (F ++ S)) by apply (v_nodup _ _ _ _ _ _ I).
    assert (X : exists idv ids reserved, po = Some (idv, ids, reserved) /\
       (255 <= length ids + length (filter (fun x => n_referenceable (g x)) (a :: d_visited st)))%nat).
    { unfold po. rewrite Ea, R0. cbn [filter]. destruct (n_referenceable (g a)) eqn:R.
      - assert (NE : d_ids st <> []).
        { intro E. pose proof (w_ids _ J) as W. rewrite E in W. cbn [length Nat.add] in W.
          assert (L : (length (a :: filter (fun x => n_referenceable (g x)) (F ++ S)) <= length few)%nat).
          { apply NoDup_incl_length.
            - constructor; [|now apply NoDup_filter]. intro Q. apply filter_In in Q as [Q _]. apply MV, (v_set _ _ _ _ _ _ I), in_app_or, Q.
            - intros x [<-|Q]; [now apply Hall|]. apply filter_In in Q as [Q1 Q2]. apply Hall; [|exact Q2].
              apply (gr_covers _ _ _ G). apply (v_sub _ _ _ _ _ _ I). now apply in_app_or. }
          assert (L2 : (length (filter (fun x => n_referenceable (g x)) (d_visited st)) <= length (filter (fun x => n_referenceable (g x)) (F ++ S)))%nat).
          { apply NoDup_incl_length; [apply NoDup_filter, (w_vn _ J)|]. intros x Q. apply filter_In in Q as [Q1 Q2]. apply filter_In. split; [|exact Q2].
            apply in_or_app. now apply (v_set _ _ _ _ _ _ I). }
          cbn [length] in L. lia. }
        destruct (pop_free_total _ NE) as [[v ids] E]. rewrite E. cbn [bind]. exists (Some v), ids, []. split; [reflexivity|].
        apply pop_free_length in E. pose proof (w_ids _ J). cbn [length]. lia.
      - exists None, (d_ids st), []. split; [reflexivity|]. apply (w_ids _ J). }
    destruct X as (idv & ids & reserved & Ep & Hlen). rewrite Ep. cbn [bind]. cbv zeta.
    cbn [d_feature d_id d_ids d_reserved d_linked d_visited d_cnt].
    set (L := if mem a listed then upd (d_linked st) a [] else d_linked st).
    set (st2 := mkDS (upd (d_feature st) a (Some f)) (upd (d_id st) a idv) ids reserved L (a :: d_visited st) (d_cnt st)) in *.
    assert (Est2 : (match ai with Some _ => mkDS (upd (d_feature st) a (Some f)) (upd (d_id st) a idv) ids reserved (upd (d_linked st) a []) (a :: d_visited st) (d_cnt st) | None => mkDS (upd (d_feature st) a (Some f)) (upd (d_id st) a idv) ids reserved (d_linked st) (a :: d_visited st) (d_cnt st) end) = st2).
    { subst st2 L. rewrite <- Eai'. destruct ai; reflexivity. }
    rewrite Est2. clear Est2.
    destruct (mark_inv g listed Hin rank Hrank rs G a f st F S idv ids reserved L I Ka MV Ep) as [St2 I2]. fold st2 in St2, I2.
    assert (J2 : inv3 st2).
    { subst st2. constructor; cbn [d_visited d_ids d_feature].
      - constructor; [exact MV|apply (w_vn _ J)].
      - exact Hlen.
      - intros x f' Nx. unfold upd. destruct (Nat.eqb x a) eqn:E; [|now apply (w_ft _ J)].
        apply Nat.eqb_eq in E. subst x. intro Q. apply some_inj in Q. congruence. }
    assert (Step : forall c F0 s0 s1, (fun x st => dfs fuel g rs x (Some w) f st) c s0 = Some s1 -> In c (succs g a) -> inv2 g listed rs F0 (a :: S) s0 ->
       exists F', step_post g listed rs c w f F0 (a :: S) s0 s1 F' /\ d_linked s1 w = d_linked s0 w ++ F' /\ (forall x, In x F' -> ~ In x listed)).
    { intros c F0 s0 s1 Hc Ic I0. cbv beta in Hc. pose proof (succs_unlisted g listed Hin rs G a c Ka Ic) as Uc.
      destruct (dfs_spec g listed Hin rank Hrank rs G fuel c (Some w) f s0 s1 F0 (a :: S) Hc) as (w' & F' & Ew & P1 & P2 & _ & P4); try assumption.
      - eapply gr_closed; eassumption.
      - pose proof (Hrank a c (proj2 (uses_succs g a c) Ic)) as Q. intros y [<-|Y]; [exact Q|]. specialize (Hr y Y). lia.
      - tauto.
      - tauto.
      - discriminate.
      - replace (mem c listed) with false in * by (symmetry; now apply mem_notIn). apply some_inj in Ew. subst w'.
        exists F'. auto. }
    assert (Tot : forall c F0 s0, In c (succs g a) -> inv2 g listed rs F0 (a :: S) s0 -> inv3 s0 ->
       exists s1 F', (fun x st => dfs fuel g rs x (Some w) f st) c s0 = Some s1 /\ inv3 s1 /\ inv2 g listed rs (F0 ++ F') (a :: S) s1).
    { intros c F0 s0 Ic I0 J0. pose proof (succs_unlisted g listed Hin rs G a c Ka Ic) as Uc.
      pose proof (proj2 (uses_succs g a c) Ic) as U. pose proof (Hrank a c U) as Q.
      destruct (IH c (Some w) f s0 F0 (a :: S)) as (s1 & E1 & J1); try assumption.
      - lia.
      - eapply gr_closed; eassumption.
      - rewrite Ef. symmetry. now apply ft_uses.
      - intros y [<-|Y]; [exact Q|]. specialize (Hr y Y). lia.
      - tauto.
      - tauto.
      - discriminate.
      - destruct (Step c F0 s0 s1 E1 Ic I0) as (F' & P & _). exists s1, F'. split; [exact E1|]. split; [exact J1|]. apply P. }
    assert (Cov : forall x, In x (r_oref rs a ++ r_uref rs a) <-> In x (succs g a)) by apply (gr_covers _ _ _ G a Ka).
    destruct (fold_total _ (a :: S) (succs g a) Tot (r_oref rs a) F st2) as (st3 & E3 & J3);
      [intros x X; apply Cov, in_or_app; now left|exact I2|exact J2|].
    destruct (fold_spec g listed rs _ w f (a :: S) (succs g a) Step _ F st2 st3 E3) as (Fa & A1 & A2 & A3 & _);
      [intros x X; apply Cov, in_or_app; now left|exact I2|].
    destruct (fold_total _ (a :: S) (succs g a) Tot (r_uref rs a) (F ++ Fa) st3) as (st4 & E4 & J4);
      [intros x X; apply Cov, in_or_app; now right|exact A1|exact J3|].
    destruct (fold_spec g listed rs _ w f (a :: S) (succs g a) Step _ (F ++ Fa) st3 st4 E4) as (Fb & B1 & B2 & B3 & _);
      [intros x X; apply Cov, in_or_app; now right|exact A1|].
    rewrite E3. cbn [bind]. rewrite E4. cbn [bind].
    set (st5 := mkDS (d_feature st4) (d_id st4) (d_ids st4) (d_reserved st4) (upd (d_linked st4) w (d_linked st4 w ++ [a])) (d_visited st4) (d_cnt st4)).
    assert (J5 : inv3 st5) by (destruct J4 as [W0 W1 W2]; now constructor).
    destruct (n_referencing (g a)) eqn:Rg; [|eauto].
    assert (H5 : heap_ok g listed st5) by (destruct (v_heap _ _ _ _ _ _ B1) as [q1 q2 q3 q4 q5 q6 q7 q8]; constructor; assumption).
    assert (NFa : ~ In a ((F ++ Fa) ++ Fb)).
    { pose proof (v_nodup _ _ _ _ _ _ B1) as JN. intro Q. apply NoDup_remove_2 in JN. apply JN. apply in_or_app. now left. }
    destruct (release_total (n_refs (g a)) st5 H5) as [st6 E6].
    - intros r Ir. assert (Ir' : In r (succs g a)) by (unfold succs; now rewrite Rg).
      split; [|split; [now apply (succs_unlisted g listed Hin rs G a r)|apply (uses_succs g a r), Ir']].
      apply (v_set _ _ _ _ _ _ B1). left. apply Cov, in_app_or in Ir' as [Q|Q].
      + apply in_or_app. left. now apply A2.
      + now apply B2.
    - intro r. subst st5. cbn [d_cnt]. rewrite (v_cnt _ _ _ _ _ _ B1).
      rewrite (sumf_split (occ g r) K ((F ++ Fa) ++ Fb) a (gr_nodup _ _ _ G) Ka NFa). unfold occ at 1, succs. rewrite Rg. lia.
    - exists st6. split; [exact E6|]. exact (release_inv3 _ _ _ E6 J5).
  Qed.

  Lemma roots_total : forall fuel l pr F st, (forall s, In s listed -> (rank s < fuel)%nat) -> NoDup (pr ++ l) ->
    (forall x, In x (pr ++ l) -> In x listed /\ is_action g x = true) ->
    inv2 g listed rs F [] st -> inv3 st -> (forall x, In x l -> ~ In x F) ->
    exists st', fold_opt (fun r st => do f <- n_feature (g r); dfs fuel g rs r None f st) l st = Some st'.
  Proof.
    intros fuel l. induction l as [|r l IH]; intros pr F st Hf ND Hl I J NF; cbn [fold_opt]; [eauto|].
    destruct (Hl r) as [Lr Ar]; [apply in_or_app; right; now left|].
    rewrite (fa_listed _ _ _ Hft r Lr Ar). cbn [bind].
    assert (NV : ~ In r (d_visited st)) by (intro Q; apply (v_set _ _ _ _ _ _ I) in Q as [Q|[]]; now apply (NF r (or_introl eq_refl))).
    destruct (dfs_total fuel r None (ft r) st F []) as (st1 & E1 & J1); auto; try tauto.
    - now apply (gr_infol _ _ _ G r Lr).
    - intros y [].
    - rewrite E1. cbn [bind].
      destruct (dfs_spec g listed Hin rank Hrank rs G fuel r None (ft r) st st1 F [] E1) as (w & F' & Ew & P & _ & LF & _); auto; try tauto.
      + now apply (gr_infol _ _ _ G r Lr).
      + intros y [].
      + destruct (LF Lr) as (F'' & E'' & U'' & _).
        apply (IH (pr ++ [r]) (F ++ F')); auto.
        * now rewrite <- app_assoc.
        * intros x Q. apply Hl. now rewrite <- app_assoc in Q.
        * apply P.
        * intros x X Q. apply in_app_or in Q as [Q|Q]; [apply (NF x (or_intror X) Q)|]. rewrite E'' in Q.
          apply in_app_or in Q as [Q|[<-|[]]].
          -- apply (U'' x Q). apply Hl, in_or_app. right. now right.
          -- apply NoDup_remove_2 in ND. apply ND, in_or_app. now right.
  Qed.
End P4.

Lemma resolve_refs_total : forall g listed ft few, inline_refs g listed -> acyclic g -> features_agree g listed ft ->
  (length few <= 255)%nat -> (forall a, needed g listed a -> n_referenceable (g a) = true -> In a few) ->
  exists depth, forall fuel, (depth <= fuel)%nat -> exists res, resolve_refs fuel g listed = Some res.
Proof.
  intros g listed ft few Hin [rank Hrank] Hft Hfew Hall.
  exists (S (fold_right Nat.max O (map rank listed))). intros fuel Hfu.
  assert (Rk : forall s, In s listed -> (rank s < fuel)%nat).
  { intros s Is. apply Nat.lt_le_trans with (2 := Hfu). apply le_n_S. clear -Is. induction listed as [|x l IH]; [destruct Is|].
    cbn [map fold_right]. destruct Is as [->|Is]; [lia|]. specialize (IH Is). lia. }
  unfold resolve_refs.
  destruct (resolve_all_total g listed Hin rank Hrank few Hfew Hall fuel listed 0 [] rs0 []) as [rs Ers]; auto.
  { apply incl_refl. }
  { exact (ir_nodup _ _ Hin). }
  { apply inv1_0. }
  rewrite Ers. cbn [bind]. pose proof (resolve_all_graph g listed Hin fuel rs Ers) as G.
  unfold run_roots. rewrite (gr_roots _ _ _ G).
  destruct (roots_total g listed Hin rank Hrank ft Hft few Hfew Hall rs G fuel (filter (is_action g) listed) [] [] (ds0 g rs)) as [st Est]; auto.
  - exact (ir_nodup _ _ Hin).
  - intros x X. now apply filter_In in X.
  - now apply (inv2_0 g listed rank Hrank).
  - constructor; cbn [ds0 d_visited d_ids d_feature].
    + constructor.
    + unfold ids0. rewrite map_length, seq_length. cbn. lia.
    + intros x f N E. exact (fa_set _ _ _ Hft x f N E).
  - rewrite Est. cbn [bind]. eauto.
Qed.

Lemma min_of_in : forall l m, In (min_of m l) (m :: l).
Proof.
  induction l as [|x l IH]; intro m; cbn [min_of]; [now left|].
  destruct (IH (Z.min m x)) as [H|H]; [rewrite <- H; destruct (Z.min_spec m x) as [[_ ->]|[_ ->]]; [now left|right; now left]|right; now right].
Qed.
Lemma remove1_incl : forall m l, incl (remove1 m l) l.
Proof.
  induction l as [|x l IH]; intros y H; cbn [remove1] in H; [destruct H|]. destruct (x =? m); [now right|].
  destruct H as [<-|H]; [now left|right; now apply IH].
Qed.
Lemma pop_free_free : forall n ids reserved v ids', pop_free n ids reserved = Some (v, ids') ->
  ~ In v reserved /\ In (- v) ids /\ incl ids' ids.
Proof.
  induction n as [|n IH]; intros ids reserved v ids' H; cbn [pop_free] in H; [discriminate|].
  destruct (pop_min ids) as [[m ids1]|] eqn:P; [|discriminate].
  assert (A : In m ids /\ incl ids1 ids).
  { destruct ids as [|i ids]; cbn [pop_min] in P; [discriminate|]. cbv zeta in P. apply some_inj, pair_inj in P as [E1 E2]. subst.
    split; [apply min_of_in|apply remove1_incl]. }
  destruct A as [A1 A2]. destruct (memZ (- m) reserved) eqn:M.
  - destruct (IH _ _ _ _ H) as (B1 & B2 & B3). split; [exact B1|]. split; [now apply A2|]. intros x X. apply A2. now apply B3.
  - apply some_inj, pair_inj in H as [<- <-]. split; [|rewrite Z.opp_involutive; now split].
    intro I. apply memZ_In in I. congruence.
Qed.
