(** Proofs about reference resolution: the whole function. *)
From Coq Require Import FinFun ZArith List Bool Lia ZifyBool.
From Verif Require Import Base BaseFacts RecordsModel RecordsProofs RefsModel SpecRefs RefsProofs RefsProofs2.
Import ListNotations.
Open Scope Z_scope.

Section P3.
  Variable g : aid -> node.
  Variable listed : list aid.
  Hypothesis Hin : inline_refs g listed.
  Variable rank : aid -> nat.
  Hypothesis Hrank : forall a r, uses g a r -> (rank r < rank a)%nat.
  Notation need := (needed g listed).

  (** The list linked to a listed action: new actions, then itself. *)
  Definition linked_ok (st : dstate) (p : aid) : Prop :=
    exists F'', d_linked st p = F'' ++ [p] /\ (forall x, In x F'' -> ~ In x listed /\ need x) /\ (succs g p = [] -> F'' = []).

  Lemma roots_fold : forall fuel rs, graph g listed rs -> forall l pr F st st',
    fold_opt (fun r st => do f <- n_feature (g r); dfs fuel g rs r None f st) l st = Some st' ->
    NoDup (pr ++ l) -> (forall x, In x (pr ++ l) -> In x listed /\ is_action g x = true) ->
    inv2 g listed rs F [] st -> F = flat_map (d_linked st) pr -> (forall p, In p pr -> linked_ok st p) ->
    exists F', inv2 g listed rs F' [] st' /\ F' = flat_map (d_linked st') (pr ++ l) /\ (forall p, In p (pr ++ l) -> linked_ok st' p).
  Proof.
    intros fuel rs G. induction l as [|r l IH]; intros pr F st st' H ND HL I EF LO; cbn [fold_opt] in H.
    - apply some_inj in H. subst st'. exists F. rewrite app_nil_r. auto.
    - bnd H st1 H1. bnd H1 f Hf.
      destruct (HL r) as [Lr Ar]; [apply in_or_app; right; now left|].
      assert (Npr : ~ In r pr) by (intro Q; apply NoDup_remove_2 in ND; apply ND, in_or_app; now left).
      assert (NF : ~ In r F).
      { rewrite EF. intro Q. apply in_flat_map in Q as [p [P Q]]. destruct (LO p P) as (F'' & E & U & _). rewrite E in Q.
        apply in_app_or in Q as [Q|[<-|[]]]; [|tauto]. now apply (U r Q). }
      destruct (dfs_spec g listed Hin rank Hrank rs G fuel r None f st st1 F [] H1) as (w & F' & Ew & P & Lk & LF & _).
      { now apply (gr_infol _ _ _ G r Lr). }
      { exact I. }
      { intros y []. }
      { intros _ Q. apply (v_set _ _ _ _ _ _ I) in Q as [Q|[]]. tauto. }
      { auto. }
      { tauto. }
      replace (mem r listed) with true in * by (symmetry; now apply mem_In). apply some_inj in Ew. subst w. cbn [app] in Lk.
      destruct P as (P1 & _ & _ & _ & P5 & P6). destruct (LF Lr) as (F'' & E'' & U'' & S'').
      assert (PR : forall p, In p pr -> d_linked st1 p = d_linked st p) by (intros p Q; apply P5; intros ->; tauto).
      specialize (IH (pr ++ [r]) (F ++ F') st1 st' H). rewrite <- app_assoc in IH. apply IH; auto.
      + rewrite flat_map_app. cbn [flat_map]. rewrite app_nil_r, Lk. f_equal. rewrite EF.
        clear -PR. induction pr as [|p pr IHp]; [reflexivity|]. cbn [flat_map]. rewrite PR by now left. f_equal. apply IHp. intros; apply PR; now right.
      + intros p Q. apply in_app_or in Q as [Q|[<-|[]]].
        * destruct (LO p Q) as (X & X1 & X2 & X3). exists X. now rewrite PR.
        * exists F''. split; [now rewrite Lk|]. split; [|exact S'']. intros x Q. split; [now apply U''|].
          apply P6. rewrite E''. apply in_or_app. now left.
  Qed.

  Lemma filter_mem_nil : forall l : list aid, filter (fun a => negb (mem a [])) l = l.
  Proof. induction l as [|x l IH]; [reflexivity|]. cbn [filter]. change (negb (mem x [])) with true. cbv iota. now rewrite IH. Qed.

  Lemma inv2_0 : forall rs, graph g listed rs -> inv2 g listed rs [] [] (ds0 g rs).
  Proof.
    intros rs G. constructor; cbn [ds0 d_visited d_cnt]; try (intros; contradiction); try (intros X r Y E; destruct X; discriminate).
    - intro x. cbn. tauto.
    - constructor.
    - intros x [[]|[]].
    - intro r. rewrite (gr_cnt _ _ _ G). f_equal. symmetry. apply filter_mem_nil.
    - constructor; cbn [d_reserved d_ids d_id d_visited]; try (intros; contradiction); try reflexivity.
      + unfold ids0. apply Coq.Logic.FinFun.Injective_map_NoDup; [intros a b E; lia|apply seq_NoDup].
      + intros v I. unfold ids0 in I. apply in_map_iff in I as [n [<- I]]. apply in_seq in I. lia.
      + intros x v [[] _].
      + intros x y [[] _].
  Qed.

  Lemma needed_unlisted : forall x, need x -> ~ In x listed -> n_referenceable (g x) = true.
  Proof. intros x H N. destruct H as [|a r _ U]; [tauto|]. apply U. Qed.

  Lemma filter_split : forall {A} (p : A -> bool) l X r Y, filter p l = X ++ r :: Y ->
    exists x y, l = x ++ r :: y /\ filter p x = X /\ filter p y = Y.
  Proof.
    intros A p. induction l as [|a l IH]; intros X r Y H; cbn [filter] in H; [destruct X; discriminate|].
    destruct (p a) eqn:E.
    - destruct X as [|z X]; injection H as -> H.
      + exists [], l. auto.
      + destruct (IH X r Y H) as (x & y & -> & Hx & Hy). exists (z :: x), y. cbn [filter app]. rewrite E, Hx. auto.
    - destruct (IH X r Y H) as (x & y & -> & Hx & Hy). exists (a :: x), y. cbn [filter app]. rewrite E. auto.
  Qed.

  Lemma resolve_main : forall fuel res, resolve_refs fuel g listed = Some res ->
    exists F,
      filter (is_action g) (out res) = F /\ NoDup F /\
      (forall F1 a F2, F = F1 ++ a :: F2 -> forall r, In r (succs g a) ->
         exists v, last_with_id (out_id res) F1 v r /\ 1 <= v <= 255 /\ out_feature res r = out_feature res a) /\
      (forall x, In x F -> exists f, out_feature res x = Some f) /\
      filter (fun x => mem x listed) (out res) = listed /\
      (forall x, In x (out res) -> need x) /\
      (forall x, In x (out res) -> is_action g x = false -> out_id res x = None).
  Proof.
    intros fuel res H. unfold resolve_refs in H. bnd H rs Hrs. bnd H st Hst. apply some_inj in H. subst res. cbn [out out_id out_feature].
    pose proof (resolve_all_graph g listed Hin fuel rs Hrs) as G.
    unfold run_roots in Hst. rewrite (gr_roots _ _ _ G) in Hst.
    destruct (roots_fold fuel rs G (filter (is_action g) listed) [] [] (ds0 g rs) st Hst) as (F & I & EF & LO).
    { exact (ir_nodup _ _ Hin). }
    { intros x X. cbn [app] in X. now apply filter_In in X. }
    { now apply inv2_0. }
    { reflexivity. }
    { intros p []. }
    cbn [app] in *.
    assert (LA : forall s, In s listed -> is_action g s = true -> linked_ok st s) by (intros s S1 S2; apply LO, filter_In; auto).
    set (o := fun s => if n_referencing (g s) then d_linked st s else [s]).
    assert (Eo : forall s, In s listed -> o s = if is_action g s then d_linked st s else [s]).
    { intros s Is. unfold o. destruct (is_action g s) eqn:A.
      - destruct (n_referencing (g s)) eqn:R; [reflexivity|]. destruct (LA s Is A) as (F'' & -> & _ & S).
        rewrite S; [reflexivity|]. unfold succs. now rewrite R.
      - unfold is_action in A. apply orb_false_iff in A as [-> _]. reflexivity. }
    assert (UA : forall x, need x -> ~ In x listed -> is_action g x = true).
    { intros x X Y. unfold is_action. rewrite (needed_unlisted x X Y). apply orb_true_r. }
    assert (FO : forall s, In s listed -> filter (is_action g) (o s) = if is_action g s then d_linked st s else []).
    { intros s Is. rewrite (Eo s Is). destruct (is_action g s) eqn:A; [|cbn [filter]; now rewrite A].
      destruct (LA s Is A) as (F'' & -> & U & _). rewrite filter_app. cbn [filter]. rewrite A. f_equal.
      clear -U UA. induction F'' as [|x l IH]; [reflexivity|]. cbn [filter]. rewrite UA by apply (U x (or_introl eq_refl)).
      f_equal. apply IH. intros; apply U; now right. }
    assert (FL : forall s, In s listed -> filter (fun x => mem x listed) (o s) = [s]).
    { intros s Is. rewrite (Eo s Is). assert (M : mem s listed = true) by (now apply mem_In).
      destruct (is_action g s) eqn:A; [|cbn [filter]; now rewrite M].
      destruct (LA s Is A) as (F'' & -> & U & _). rewrite filter_app. cbn [filter]. rewrite M.
      rewrite (filter_none listed F''); [reflexivity|]. intros x X. now apply U. }
    assert (X1 : forall l, incl l listed -> filter (is_action g) (flat_map o l) = flat_map (d_linked st) (filter (is_action g) l)).
    { induction l as [|s l IHl]; intro Sub; [reflexivity|]. cbn [flat_map filter]. rewrite filter_app, FO by (apply Sub; now left).
      rewrite IHl by (intros x X; apply Sub; now right). now destruct (is_action g s). }
    assert (X2 : forall l, incl l listed -> filter (fun x => mem x listed) (flat_map o l) = l).
    { induction l as [|s l IHl]; intro Sub; [reflexivity|]. cbn [flat_map filter]. rewrite filter_app, FL by (apply Sub; now left).
      rewrite IHl by (intros x X; apply Sub; now right). reflexivity. }
    assert (NE : forall x, In x (flat_map o listed) -> need x).
    { intros x X. apply in_flat_map in X as [s [Is X]]. rewrite (Eo s Is) in X. destruct (is_action g s) eqn:A.
      - destruct (LA s Is A) as (F'' & E & U & _). rewrite E in X. apply in_app_or in X as [X|[<-|[]]]; [now apply U|now apply need_listed].
      - destruct X as [<-|[]]. now apply need_listed. }
    destruct I as [IS IN IK IC IH0 IA IO IFt]. rewrite app_nil_r in IN.
    exists F. split; [rewrite X1 by apply incl_refl; now rewrite <- EF|]. split; [exact IN|]. split; [|split; [|split; [|split]]].
    - intros F1 a F2 E r Ir. destruct (IO F1 a F2 E r Ir) as (v & L & Ef). exists v. split; [exact L|]. split; [|exact Ef].
      destruct L as (x & y & Ex & Ev & _).
      assert (Vr : In r (d_visited st)) by (apply IS; left; rewrite E, Ex; apply in_or_app; left; apply in_or_app; right; now left).
      destruct (h_ref _ _ _ IH0 r Vr) as (v' & Ev' & R); [|assert (v' = v) by congruence; now subst].
      apply uses_succs in Ir. apply Ir.
    - intros x X. apply IFt, IS. now left.
    - apply X2, incl_refl.
    - exact NE.
    - intros x X A. assert (~ In x (d_visited st)).
      { intro V. apply IS in V as [V|[]]. rewrite EF, <- X1 in V by apply incl_refl. apply filter_In in V as [_ V]. congruence. }
      rewrite (h_none _ _ _ IH0 x H). apply (ir_noid _ _ Hin). now apply NE.
  Qed.

  Lemma resolve_order : forall fuel res, resolve_refs fuel g listed = Some res ->
    forall pre a post, out res = pre ++ a :: post -> forall r, uses g a r ->
    exists n, last_with_id (out_id res) pre n r /\ 1 <= n <= 255 /\ out_feature res r = out_feature res a.
  Proof.
    intros fuel res H pre a post E r U. destruct (resolve_main fuel res H) as (F & EF & _ & O & _ & _ & NE & NI).
    assert (A : is_action g a = true) by (unfold is_action; now rewrite (proj1 U)).
    assert (EF' : F = filter (is_action g) pre ++ a :: filter (is_action g) post).
    { rewrite <- EF, E, filter_app. cbn [filter]. now rewrite A. }
    destruct (O _ _ _ EF' r (proj1 (uses_succs g a r) U)) as (v & (x & y & Ep & Ev & Ey) & R & Ft).
    exists v. split; [|auto]. apply filter_split in Ep as (x' & y' & Ep & Hx & Hy). exists x', y'. split; [exact Ep|]. split; [exact Ev|].
    intros b Ib. destruct (is_action g b) eqn:B.
    - apply Ey. rewrite <- Hy. apply filter_In. auto.
    - rewrite NI; [discriminate| |exact B]. rewrite E, Ep. apply in_or_app. left. apply in_or_app. right. now right.
  Qed.

  Lemma resolve_complete : forall fuel res, resolve_refs fuel g listed = Some res -> forall x, need x -> In x (out res).
  Proof.
    intros fuel res H x N. induction N as [x I|a r N IH U].
    - destruct (resolve_main fuel res H) as (F & _ & _ & _ & _ & E & _). rewrite <- E in I. now apply filter_In in I.
    - apply in_split in IH as (pre & post & E). destruct (resolve_order fuel res H pre a post E r U) as (n & (x & y & Ep & _) & _).
      rewrite E, Ep. apply in_or_app. left. apply in_or_app. right. now left.
  Qed.
End P3.
