From Coq Require Import ZArith List Bool Lia String.
From Verif Require Import Base BaseFacts RecordsModel IdMapModel SpecIdMap IdMapProofs.
Import ListNotations.
Open Scope Z_scope.

(** A feature has a counter only if it has names. *)
Definition named (index : list (skey * Z)) (next : list (Z * Z)) : Prop :=
  forall f x, dict_get Z.eqb next f = Some x -> exists n i, dict_get skey_eqb index (f, n) = Some i.
Lemma load_name_named : forall f e index next used,
  named index next -> let '(i', n', _) := load_name f (index, next, used) e in named i' n'.
Proof.
  intros f [n0 i0] index next used H. unfold load_name. cbn [fst snd]. intros g x X.
  rewrite (gset Z.eqb Z.eqb_eq) in X. destruct (g =? f) eqn:E.
  - apply Z.eqb_eq in E. subst g. exists n0, i0. apply gset_eq. apply skey_eqb_ok.
  - destruct (H g x X) as (n & i & I). exists n, i. rewrite gset_neq; [exact I|apply skey_eqb_ok|].
    intro Q. apply pair_inj in Q as [-> _]. rewrite Z.eqb_refl in E. discriminate.
Qed.
Lemma load_names_named : forall f names index next used, named index next ->
  let '(i', n', _) := fold_left (load_name f) names (index, next, used) in named i' n'.
Proof.
  intros f. induction names as [|e names IH]; intros index next used H; [exact H|]. cbn [fold_left].
  pose proof (load_name_named f e index next used H) as Q. destruct (load_name f (index, next, used) e) as [[i1 n1] u1]. now apply IH.
Qed.
Lemma load_features_named : forall l index next used r, named index next -> load_features l (index, next, used) = Some r ->
  let '(i', n', _) := r in named i' n'.
Proof.
  induction l as [|[fn names] l IH]; intros index next used r H E; cbn [load_features] in E.
  - apply some_inj in E. subst r. exact H.
  - destruct (from_name fn) as [f|]; [|discriminate]. cbn [bind] in E.
    pose proof (load_names_named f names index next used H) as Q. destruct (fold_left (load_name f) names (index, next, used)) as [[i1 n1] u1].
    exact (IH _ _ _ _ Q E).
Qed.

(** first_free gives the least id that is not taken. *)
Lemma first_free_least : forall fuel manual f i j, i <= j < first_free fuel manual f i -> In (f, VInt j) manual.
Proof.
  induction fuel as [|fuel IH]; intros manual f i j H; cbn [first_free] in H; [lia|].
  destruct (fkey_in (f, VInt i) manual) eqn:E; [|lia]. destruct (Z.eq_dec i j) as [->|N]; [now apply fkey_in_ok|].
  apply (IH manual f (i + 1) j). lia.
Qed.

Lemma first_spec : forall d ids f n m' r, file_good d -> 0 <= f <= 20 -> (forall n i, ~ says d f n i) ->
  resolve (Some d) (reserve ids new_map) f (VStr n) = (m', r) ->
  exists i, r = Some i /\ min_id f <= i /\ (forall j, min_id f <= j < i -> In (f, VInt j) ids).
Proof.
  intros d ids f n m' r G R Sy H.
  destruct (load_good d (reserve ids new_map) G eq_refl) as (index & next & used & E & B & O & ND & KK & L).
  unfold resolve in H. rewrite E in H. cbn [m_index m_next m_auto m_manual m_loaded reserve new_map] in H. rewrite app_nil_r in H.
  assert (Nf : dict_get Z.eqb next f = None).
  { unfold load in E. cbn [m_loaded reserve new_map bind] in E. destruct (j_version d =? 1); [|discriminate].
    destruct (load_features (j_index d) ([], [], [])) as [[[i1 n1] u1]|] eqn:F; [|discriminate]. cbn [bind] in E.
    apply some_inj in E. injection E as -> -> ->.
    pose proof (load_features_named _ _ _ _ _ (fun f x (X : dict_get Z.eqb [] f = Some x) => ltac:(discriminate X)) F) as Q. cbn in Q.
    destruct (dict_get Z.eqb next f) as [x|] eqn:X; [|reflexivity]. destruct (Q f x X) as (a & b & I). exfalso.
    apply (Sy a b). now apply L. }
  destruct (dict_get skey_eqb index (f, n)) as [i|] eqn:I; [exfalso; apply (Sy n i); now apply L|].
  rewrite Nf in H. apply pair_inj in H as [_ <-].
  eexists. split; [reflexivity|]. split.
  - generalize (S (List.length ids)) as fuel. generalize (min_id f) as i. intros i fuel. revert i.
    induction fuel as [|fuel IH]; intro i; cbn [first_free]; [lia|]. destruct (fkey_in _ _); [|lia]. specialize (IH (i + 1)). lia.
  - intros j. apply first_free_least.
Qed.
