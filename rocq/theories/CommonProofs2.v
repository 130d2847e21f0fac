(** Linking CommonProofs.v to the calendar specification. *)
From Coq Require Import ZArith List Bool Lia ZifyBool.
From Verif Require Import Base BaseFacts CommonModel CommonProofs SpecCommon.
Import ListNotations.
Open Scope Z_scope.

Lemma leap_iff : forall y, is_leap_year y = true <-> leap y.
Proof.
  intro y. unfold is_leap_year, leap.
  rewrite <- !Z.mod_divide by lia.
  rewrite andb_true_iff, orb_true_iff, negb_true_iff, !Z.eqb_eq, Z.eqb_neq. tauto.
Qed.

Lemma mlen_spec : forall y m n, 1 <= m <= 12 -> (month_length y m n <-> n = mlen y m).
Proof.
  intros y m n Hm. split.
  - intros H. inversion H; subst; unfold mlen.
    + repeat match goal with H : _ \/ _ |- _ => destruct H as [->|H] end; subst; reflexivity.
    + repeat match goal with H : _ \/ _ |- _ => destruct H as [->|H] end; subst; reflexivity.
    + apply leap_iff in H0. now rewrite H0.
    + destruct (is_leap_year y) eqn:E; [|reflexivity].
      exfalso. apply H0. now apply leap_iff.
  - intros ->. unfold mlen.
    destruct (m =? 2) eqn:E2.
    + apply Z.eqb_eq in E2. subst. destruct (is_leap_year y) eqn:E; constructor.
      * now apply leap_iff.
      * intro L. apply leap_iff in L. congruence.
    + destruct ((m =? 4) || (m =? 6) || (m =? 9) || (m =? 11)) eqn:E; constructor; lia.
Qed.

Lemma valid_iff : forall d, valid_date d <-> validd d.
Proof.
  intro d. unfold valid_date, validd. split.
  - intros (H1 & H2 & n & H3 & H4). apply mlen_spec in H3; [subst; auto|assumption].
  - intros (H1 & H2 & H3). repeat split; try lia. exists (mlen (d_year d) (d_month d)).
    split; [now apply mlen_spec|assumption].
Qed.

Lemma follows_next : forall a b, valid_date a -> follows a b -> b = datetime_next a.
Proof.
  intros a b V F. apply valid_iff in V. destruct F as [y m e n L H | y m n L H | y];
    destruct V as (Hy & Hm & Hd); cbn [d_year d_month d_day] in *.
  - apply mlen_spec in L; [|assumption]. subst n.
    unfold datetime_next. cbn [d_year d_month d_day]. fold (mlen y m).
    replace (e <? mlen y m) with true by lia. reflexivity.
  - apply mlen_spec in L; [|assumption]. subst n.
    unfold datetime_next. cbn [d_year d_month d_day]. fold (mlen y m).
    replace (mlen y m <? mlen y m) with false by lia.
    replace (m <? 12) with true by lia. reflexivity.
  - reflexivity.
Qed.

Lemma c02_successor : forall a b, valid_date a -> follows a b ->
  exists n, to_days a = Some n /\ to_days b = Some (n + 1).
Proof.
  intros a b V F. rewrite (follows_next a b V F). apply to_days_next. now apply valid_iff.
Qed.

Lemma c02_order : forall a b, valid_date a -> valid_date b ->
  exists m n, to_days a = Some m /\ to_days b = Some n /\ (date_lt a b <-> m < n)
  /\ (a = b <-> m = n).
Proof.
  intros a b Va Vb. apply valid_iff in Va, Vb.
  destruct (to_days_next a Va) as (m & Ha & _). destruct (to_days_next b Vb) as (n & Hb & _).
  exists m, n. repeat split; auto.
  - intro L. exact (to_days_mono a b m n Va Vb L Ha Hb).
  - intro L. 
    assert (T : a = b \/ date_lt a b \/ date_lt b a).
    { destruct a as [y1 m1 e1], b as [y2 m2 e2]; unfold date_lt; cbn.
      destruct (Z.lt_trichotomy y1 y2) as [|[->|]]; [lia| |lia].
      destruct (Z.lt_trichotomy m1 m2) as [|[->|]]; [lia| |lia].
      destruct (Z.lt_trichotomy e1 e2) as [|[->|]]; [lia|left; reflexivity|lia]. }
    destruct T as [->|[T|T]]; [|assumption|].
    + rewrite Ha in Hb. injection Hb as ->. lia.
    + pose proof (to_days_mono _ _ _ _ Vb Va T Hb Ha). lia.
  - intros ->. congruence.
  - intros ->. eapply validd_inj; eauto.
Qed.

Lemma c03_datetime : forall d b r, valid_date d -> 1 <= d_year d <= 9999 ->
  dateprop_encode (DVDatetime d) = Some b ->
  dateprop_read (b ++ r) = Some (DVDatetime d, r)
  /\ dateprop_encode (DVDate d) = Some b.
Proof.
  intros d b r V Hy H. apply valid_iff in V. cbn [dateprop_encode] in *.
  unfold dateprop_read. rewrite (rd_I_pack _ _ _ H). cbn [bind].
  rewrite days_to_date_to_days by assumption.
  rewrite date_to_days_eq by (auto; lia). auto.
Qed.

Lemma c03_datetime_ok : forall d, valid_date d -> 1 <= d_year d <= 9999 ->
  exists b, dateprop_encode (DVDatetime d) = Some b.
Proof.
  intros d V Hy. apply valid_iff in V. cbn. pose proof (date_to_days_range d V Hy).
  rewrite pack_I_ok by lia. eauto.
Qed.

Lemma iter_year : forall n, 0 <= n <= 3652058 ->
  1 <= d_year (Z.iter n datetime_next (mkDate 1 1 1)) <= 9999.
Proof.
  intros n Hn. destruct (to_days_iter n ltac:(lia)) as [E V].
  set (d := Z.iter n _ _) in *. destruct V as (Hy & Hm & Hd).
  assert (V : validd d) by (repeat split; lia).
  pose proof (day_of_year_range d V) as R.
  rewrite to_days_eq in E by assumption. injection E as E.
  split.
  - destruct (Z.eq_dec (d_year d) 0) as [E0|]; [|lia].
    rewrite E0 in *. change (days_till 0) with 0 in E. change (year_len 0) with 366 in R. lia.
  - destruct (Z_le_gt_dec (d_year d) 9999); [assumption|].
    assert (3652425 <= days_till (d_year d)); [|lia].
    destruct (Z.eq_dec (d_year d) 10000) as [->|]; [cbv; discriminate|].
    pose proof (days_till_mono 10000 (d_year d) ltac:(lia) ltac:(lia)) as M.
    change (days_till 10000 + year_len 10000) with 3652791 in M. lia.
Qed.

Lemma c03_int : forall n b r, dateprop_encode (DVInt n) = Some b ->
  exists v, dateprop_read (b ++ r) = Some (v, r) /\ dateprop_encode v = Some b /\
    match v with
    | DVInt m => m = n /\ (n < 366 \/ n > 3652424)
    | DVDatetime d => valid_date d /\ 1 <= d_year d <= 9999 /\ to_days d = Some n
    | DVDate _ => False
    end.
Proof.
  intros n b r H. cbn in H. unfold dateprop_read. rewrite (rd_I_pack _ _ _ H). cbn [bind].
  eexists; split; [reflexivity|]. unfold days_to_date.
  destruct ((n <? 366) || (3652424 <? n)) eqn:E.
  - cbn. split; [assumption|]. lia.
  - destruct (to_days_iter (n - 366) ltac:(lia)) as [T V].
    pose proof (iter_year (n - 366) ltac:(lia)) as Y.
    set (d := Z.iter _ _ _) in *.
    replace (n - 366 + 366) with n in T by lia.
    split; [|split; [now apply valid_iff|auto]].
    cbn. pose proof (date_to_days_eq d V ltac:(lia)) as D. rewrite T in D.
    injection D as <-. assumption.
Qed.
