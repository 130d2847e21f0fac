(** Numbering without the assumption that each resource action is listed once. *)
From Coq Require Import ZArith List Bool Lia Sorting.Permutation.
From Verif Require Import Base BaseFacts RecordsModel RefsModel RefsProofs SchedModel SpecSched SchedProofs.
Import ListNotations.
Open Scope Z_scope.

Section S.
  Variable files : aid -> option (list fid).

  (** Numbers below [next], different for different members of [l]. *)
  Definition ninv (l : list aid) (ids : aid -> option Z) (next : Z) : Prop :=
    next = 1 + Z.of_nat (length l) /\ (forall s, In s l -> exists v, ids s = Some v /\ 0 < v < next) /\
    (forall s t, In s l -> In t l -> ids s = ids t -> s = t).
  Lemma ninv_step : forall l ids next s, ninv l ids next -> ninv (l ++ [s]) (upd ids s (Some next)) (next + 1).
  Proof.
    intros l ids next s (H0 & H1 & H2). assert (0 < next) by lia. split; [rewrite app_length; cbn [length]; lia|].
    assert (D : forall x, In x (l ++ [s]) -> x = s \/ In x l).
    { intros x X. apply in_app_or in X as [X|[<-|[]]]; auto. }
    assert (E : forall x, In x l -> ids x <> Some next).
    { intros x X. destruct (H1 x X) as (v & -> & V). intro Y. apply some_inj in Y. lia. }
    split.
    - intros x X. destruct (Nat.eq_dec x s) as [->|Ns]; [exists next; rewrite upd_eq; split; [reflexivity|lia]|].
      rewrite upd_neq by congruence. destruct (D x X) as [->|Y]; [congruence|]. destruct (H1 x Y) as (v & V & W). exists v. split; [exact V|lia].
    - intros x y X Y F. apply D in X, Y. destruct (Nat.eq_dec x s) as [->|Nx], (Nat.eq_dec y s) as [->|Ny]; [reflexivity| | |].
      + rewrite upd_eq, upd_neq in F by congruence. destruct Y as [->|Y]; [congruence|]. symmetry in F. now apply E in F.
      + rewrite upd_eq, upd_neq in F by congruence. destruct X as [->|X]; [congruence|]. now apply E in F.
      + rewrite !upd_neq in F by congruence. destruct X as [->|X]; [congruence|]. destruct Y as [->|Y]; [congruence|]. now apply H2.
  Qed.

  Lemma number_plain_any : forall sprites ordered ids next unordered, ninv ordered ids next ->
    let '(o, i, n, u) := number_plain files sprites (ordered, ids, next, unordered) in
    o = ordered ++ filter (plainb files) sprites /\ u = unordered ++ filter (loadedb files) sprites /\ ninv o i n.
  Proof.
    induction sprites as [|s sprites IH]; intros ordered ids next unordered H; cbn [number_plain].
    - cbn [filter]. rewrite !app_nil_r. auto.
    - cbn [filter]. unfold plainb at 1, loadedb at 1. destruct (files s) as [[|f l]|] eqn:F.
      + specialize (IH (ordered ++ [s]) (upd ids s (Some next)) (next + 1) unordered (ninv_step _ _ _ _ H)).
        rewrite <- app_assoc in IH. exact IH.
      + specialize (IH ordered ids next (unordered ++ [s]) H). rewrite <- app_assoc in IH. exact IH.
      + exact (IH ordered ids next unordered H).
  Qed.

  Lemma positions_any : forall l i pos,
    (forall x, In x l -> exists k, positions i l pos x = (i + k)%nat /\ nth k l O = x) /\
    (forall x, ~ In x l -> positions i l pos x = pos x).
  Proof.
    induction l as [|s l IH]; intros i pos; [split; [intros x []|reflexivity]|].
    cbn [positions]. destruct (IH (S i) (upd pos s i)) as [H1 H2]. split.
    - intros x X. destruct (in_dec Nat.eq_dec x l) as [Y|Y].
      + destruct (H1 x Y) as (k & Ek & Ex). exists (S k). split; [rewrite Ek; lia|exact Ex].
      + destruct X as [<-|X]; [|tauto]. exists O. rewrite H2 by assumption. rewrite upd_eq. split; [lia|reflexivity].
    - intros x X. rewrite H2; [apply upd_neq|]; intro Y; apply X; [now left|now right].
  Qed.

  Lemma enum_loop_any : forall u n i st, incl u (e_order st) -> pos_ok (e_order st) (e_pos st) ->
    (i + n = length (e_order st))%nat -> ninv (e_sched st) (e_id st) (e_next st) ->
    let st' := enum_loop files u n i st in
    e_sched st' = e_sched st ++ skipn i (e_order st) /\ ninv (e_sched st') (e_id st') (e_next st').
  Proof.
    intros u. induction n as [|n IH]; intros i st Hu Hp Hl Hi; cbv zeta; cbn [enum_loop].
    - rewrite skipn_all2 by lia. rewrite app_nil_r. auto.
    - set (sid := nth i (e_order st) O).
      assert (Es : skipn i (e_order st) = sid :: skipn (S i) (e_order st)).
      { unfold sid. clear - Hl. revert i Hl. generalize (e_order st). induction l as [|x l IHl]; intros i Hl; [cbn in Hl; lia|].
        destruct i as [|i]; [reflexivity|]. cbn [skipn nth]. apply IHl. cbn in Hl. lia. }
      set (st1 := mkEst (e_order st) (e_prio st) (e_pos st) (e_sched st ++ [sid]) (upd (e_id st) sid (Some (e_next st)))
                  (e_next st + 1) (e_load st) (e_last st)).
      destruct (use_files_same files u i sid (need files sid) st1 Hu Hp) as (A1 & A2 & A3 & A4 & A5 & A6).
      set (st2 := fold_left (use_file files u i sid) (need files sid) st1) in *.
      destruct (IH (S i) st2) as (C1 & C2).
      + now rewrite A1.
      + now rewrite A1, A2.
      + rewrite A1. cbn. lia.
      + rewrite A3, A4, A5. exact (ninv_step _ _ _ sid Hi).
      + split; [|exact C2]. rewrite C1, A1, A3, Es. cbn. now rewrite <- app_assoc.
  Qed.

  Lemma enumerate_any : forall ids0 sprites sched ids, enumerate_sprites files ids0 sprites = (sched, ids) ->
    (forall s, In s (map en_sprite sched) <-> In s (resources files sprites)) /\
    (forall s, In s (resources files sprites) -> exists v, ids s = Some v /\ 0 < v <= Z.of_nat (length (resources files sprites))) /\
    (forall s t, In s (resources files sprites) -> In t (resources files sprites) -> ids s = ids t -> s = t).
  Proof.
    intros ids0 sprites sched ids E. unfold enumerate_sprites in E. cbv zeta in E. apply pair_inj in E as [<- <-].
    set (st := enumerate_state files ids0 sprites).
    assert (H : Permutation (e_sched st) (resources files sprites) /\ ninv (e_sched st) (e_id st) (e_next st)).
    { unfold st, enumerate_state.
      pose proof (number_plain_any sprites [] ids0 1 []) as N. cbn [app] in N.
      destruct (number_plain files sprites ([], ids0, 1, [])) as [[[o i] n] u].
      destruct N as (-> & -> & N3).
      { split; [reflexivity|]. split; intros x; [intros []|intros y []]. }
      cbv zeta. fold (lorder files sprites).
      match goal with |- context [enum_loop files ?u ?n ?i ?s] => pose proof (enum_loop_any u n i s) as E; set (st' := enum_loop files u n i s) in * end.
      cbn [e_order e_pos e_sched e_id e_next e_load e_last] in E. cbv zeta in E. cbn [skipn] in E.
      destruct E as (E1 & E2).
      - intros x X. unfold lorder. eapply Permutation_in; [symmetry; apply sort_perm; exact (fun _ => None)|exact X].
      - intros x X. destruct (positions_any (lorder files sprites) 0 (fun _ => O)) as [Q _]. destruct (Q x X) as (k & Ek & Ex).
        cbn [Nat.add] in Ek. now rewrite Ek.
      - reflexivity.
      - exact N3.
      - split; [|exact E2]. rewrite E1. apply res_perm. }
    destruct H as (P & H0 & H1 & H2). apply Permutation_length in P as L. rewrite L in H0.
    assert (Q : forall s, In s (resources files sprites) -> In s (e_sched st)) by (intros s S; eapply Permutation_in; [symmetry; exact P|exact S]).
    rewrite map_map. cbn [en_sprite]. rewrite map_id. split; [|split].
    - intro s. split; [apply Permutation_in; exact P|apply Q].
    - intros s S. destruct (H1 s (Q s S)) as (v & V & W). exists v. split; [exact V|lia].
    - intros s t S T F. apply H2; auto.
  Qed.
End S.
