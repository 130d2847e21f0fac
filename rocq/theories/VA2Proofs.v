(** Proofs for SpecVA2.v: the allocator, the compiler, and range selection. *)
From Coq Require Import ZArith List Bool Lia ZifyBool.
From Verif Require Import Base BaseFacts CommonModel CommonProofs RecordsModel RecordsProofs Action14Model
  Action14Proofs VA2Model SpecVA2.
Import ListNotations.
Open Scope Z_scope.

(** ** Allocator *)
Lemma memz_In : forall x l, memz x l = true <-> In x l.
Proof.
  intros. unfold memz. rewrite existsb_exists. split.
  - intros [y [H E]]. apply Z.eqb_eq in E. now subst.
  - intro H. exists x. split; [assumption|apply Z.eqb_refl].
Qed.
Lemma memz_notIn : forall x l, memz x l = false <-> ~ In x l.
Proof. intros. rewrite <- memz_In. destruct (memz x l); split; congruence. Qed.

Lemma zrange_In : forall lo hi i, In i (zrange lo hi) <-> lo <= i < hi.
Proof.
  intros. unfold zrange. rewrite in_map_iff. split.
  - intros [k [<- H]]. apply in_seq in H. lia.
  - intro H. exists (Z.to_nat (i - lo)). split; [lia|]. apply in_seq. lia.
Qed.

Lemma find_zrange : forall (f : Z -> bool) lo hi r, find f (zrange lo hi) = Some r ->
  lo <= r < hi /\ f r = true /\ forall i, lo <= i < r -> f i = false.
Proof.
  intros f lo hi r. unfold zrange. remember (Z.to_nat (hi - lo)) as n eqn:En.
  assert (G : forall n k, find f (map (fun i => lo + Z.of_nat i) (seq k n)) = Some r ->
     (lo + Z.of_nat k <= r < lo + Z.of_nat (k + n)) /\ f r = true /\
     forall i, lo + Z.of_nat k <= i < r -> f i = false).
  { clear. induction n as [|n IH]; intros k H; cbn [seq map find] in H; [discriminate|].
    destruct (f (lo + Z.of_nat k)) eqn:E.
    - injection H as <-. repeat split; [lia|lia|assumption|intros; lia].
    - apply IH in H as [H1 [H2 H3]]. repeat split; [lia|lia|assumption|].
      intros i Hi. destruct (Z.eq_dec i (lo + Z.of_nat k)) as [->|]; [assumption|]. apply H3. lia. }
  intro H. apply G in H. destruct H as [H1 [H2 H3]]. repeat split; [lia|lia|assumption|].
  intros i Hi. apply H3. lia.
Qed.
Lemma find_zrange_none : forall (f : Z -> bool) lo hi, find f (zrange lo hi) = None ->
  forall i, lo <= i < hi -> f i = false.
Proof. intros f lo hi H i Hi. eapply find_none; [exact H|]. now apply zrange_In. Qed.

Definition vget (c : ctx) (x : name) : option Z := dict_get bytes_eqb (c_vars c) x.

(** What the allocator guarantees. *)
Record inv (c : ctx) : Prop := {
  i_range : forall r, In r (c_used c) -> 128 <= r < 256;
  i_min : 128 <= c_min c <= 256;
  i_low : forall i, 128 <= i < c_min c -> In i (c_used c);
  i_vars : forall x r, vget c x = Some r -> In r (c_used c);
  i_inj : forall x y r, vget c x = Some r -> vget c y = Some r -> x = y }.

Record ext (c c' : ctx) : Prop := {
  e_subs : c_subs c' = c_subs c;
  e_used : forall r, In r (c_used c) -> In r (c_used c');
  e_vars : forall x r, vget c x = Some r -> vget c' x = Some r;
  e_new : forall x r, vget c x = None -> vget c' x = Some r -> ~ In r (c_used c);
  e_only : forall r, In r (c_used c') -> In r (c_used c) \/ exists x, vget c' x = Some r }.

Lemma ext_refl : forall c, ext c c.
Proof. intro c; constructor; auto. intros; congruence. Qed.
Lemma ext_trans : forall a b c, ext a b -> ext b c -> ext a c.
Proof.
  intros a b c H1 H2. constructor.
  - rewrite (e_subs _ _ H2). apply (e_subs _ _ H1).
  - intros r H. apply (e_used _ _ H2), (e_used _ _ H1), H.
  - intros x r H. apply (e_vars _ _ H2), (e_vars _ _ H1), H.
  - intros x r H H' X. destruct (vget b x) as [r'|] eqn:E.
    + pose proof (e_vars _ _ H2 _ _ E). assert (r' = r) by congruence. subst.
      now apply (e_new _ _ H1 _ _ H E).
    + apply (e_new _ _ H2 _ _ E H'). now apply (e_used _ _ H1).
  - intros r H. destruct (e_only _ _ H2 _ H) as [X|X]; [|now right].
    destruct (e_only _ _ H1 _ X) as [Y|[x Y]]; [now left|]. right. exists x. now apply (e_vars _ _ H2).
Qed.

Lemma bytes_eqb_iff : forall a b, bytes_eqb a b = true <-> a = b.
Proof.
  induction a as [|x a IH]; intros [|y b]; cbn; try (split; congruence).
  rewrite andb_true_iff, IH, Z.eqb_eq. split; [intros [-> ->]; reflexivity|intro H; injection H; auto].
Qed.
Lemma dict_get_set : forall {V} (l : list (name * V)) x y v,
  dict_get bytes_eqb (dict_set bytes_eqb l x v) y = if bytes_eqb y x then Some v else dict_get bytes_eqb l y.
Proof.
  intros V. induction l as [|[k w] l IH]; intros x y v; cbn [dict_set dict_get].
  - reflexivity.
  - destruct (bytes_eqb x k) eqn:E.
    + apply bytes_eqb_iff in E; subst k. cbn [dict_get]. destruct (bytes_eqb y x) eqn:E'; [|reflexivity].
      reflexivity.
    + cbn [dict_get]. destruct (bytes_eqb y k) eqn:E'.
      * apply bytes_eqb_iff in E'; subst k. destruct (bytes_eqb y x) eqn:E''; [|reflexivity].
        apply bytes_eqb_iff in E''; subst. rewrite (proj2 (bytes_eqb_iff x x) eq_refl) in E. discriminate.
      * apply IH.
Qed.

Lemma inv_init : forall subs, inv (ctx_init 128 subs).
Proof. intros; constructor; cbn; intros; try lia; try easy. Qed.

Lemma reserve_ok : forall c r c', inv c -> reserve_register c = Some (r, c') ->
  inv c' /\ ~ In r (c_used c) /\ 128 <= r < 256 /\ c_used c' = r :: c_used c /\ c_vars c' = c_vars c
  /\ c_subs c' = c_subs c /\ (forall i, 128 <= i < r -> In i (c_used c)).
Proof.
  intros c r c' I H. unfold reserve_register in H. inv_opt. cbn [c_used c_vars c_subs].
  pose proof (find_zrange _ _ _ _ E) as [H1 [H2 H3]]. pose proof (i_min _ I).
  apply negb_true_iff, memz_notIn in H2.
  assert (L : forall i, 128 <= i < r -> In i (c_used c)).
  { intros i Hi. destruct (Z_lt_dec i (c_min c)); [apply (i_low _ I); lia|].
    specialize (H3 i ltac:(lia)). apply negb_false_iff, memz_In in H3. assumption. }
  split; [|repeat split; try assumption; try lia].
  constructor; unfold vget; cbn [c_used c_min c_vars].
  - intros x [<-|X]; [lia|now apply (i_range _ I)].
  - lia.
  - intros i Hi. destruct (Z.eq_dec i r); [now left|]. right. apply L; lia.
  - intros x y X. right. now apply (i_vars _ I x).
  - apply (i_inj _ I).
Qed.

Lemma release_ok : forall c0 r c1 c2 c3, inv c0 -> reserve_register c0 = Some (r, c1) ->
  inv c2 -> ext c1 c2 -> release_register c2 r = Some c3 -> inv c3 /\ ext c0 c3.
Proof.
  intros c0 r c1 c2 c3 I0 R I2 X H. destruct (reserve_ok _ _ _ I0 R) as [I1 [N [Hr [U [V [S L]]]]]].
  unfold release_register in H. inv_opt.
  assert (HU : forall i, In i (filter (fun i => negb (i =? r)) (c_used c2)) <-> In i (c_used c2) /\ i <> r).
  { intro i. rewrite filter_In. rewrite negb_true_iff, Z.eqb_neq. reflexivity. }
  assert (V0 : forall x, vget c1 x = vget c0 x) by (intro; unfold vget; now rewrite V).
  assert (NV : forall x, vget c2 x <> Some r).
  { intros x Hx. destruct (vget c1 x) as [r'|] eqn:E.
    - pose proof (e_vars _ _ X _ _ E). assert (r' = r) by congruence. subst.
      rewrite V0 in E. now apply N, (i_vars _ I0 x).
    - apply (e_new _ _ X _ _ E Hx). rewrite U. now left. }
  split.
  - constructor; unfold vget; cbn [c_used c_min c_vars].
    + intros x Hx. apply HU in Hx as [Hx _]. now apply (i_range _ I2).
    + pose proof (i_min _ I2). lia.
    + intros i Hi. apply HU. split; [apply (i_low _ I2); lia|lia].
    + intros x y Hx. apply HU. split; [now apply (i_vars _ I2 x)|]. intros ->. now apply (NV x).
    + apply (i_inj _ I2).
  - constructor; unfold vget; cbn [c_used c_min c_vars c_subs].
    + now rewrite (e_subs _ _ X).
    + intros i Hi. apply HU. split; [apply (e_used _ _ X); rewrite U; now right|]. intros ->. contradiction.
    + intros x y Hx. apply (e_vars _ _ X). rewrite V0. exact Hx.
    + intros x y Hx Hy Hi. change (vget c0 x = None) in Hx. rewrite <- (V0 x) in Hx. apply (e_new _ _ X _ _ Hx Hy). rewrite U. now right.
    + intros i Hi. apply HU in Hi as [Hi Hne]. destruct (e_only _ _ X _ Hi) as [Y|Y]; [|now right].
      rewrite U in Y. destruct Y as [Y|Y]; [congruence|now left].
Qed.

Lemma reserve_var_ok : forall c x r c', inv c -> reserve_variable c x = Some (r, c') ->
  inv c' /\ ext c c' /\ vget c' x = Some r /\ 128 <= r < 256 /\
  (forall y, y <> x -> vget c' y = vget c y).
Proof.
  intros c x r c' I H. unfold reserve_variable in H. fold (vget c x) in H.
  destruct (vget c x) as [r0|] eqn:E.
  - injection H as <- <-. split; [exact I|]. split; [apply ext_refl|]. split; [exact E|].
    split; [|reflexivity]. apply (i_range _ I), (i_vars _ I x), E.
  - inv_opt. destruct (reserve_ok _ _ _ I E0) as [I1 [N [Hr [U [V [S L]]]]]].
    rename c0 into c1.
    assert (G : forall y, vget (mkCtx (c_subs c1) (c_min c1) (c_used c1) (dict_set bytes_eqb (c_vars c1) x r)) y
                = if bytes_eqb y x then Some r else vget c y).
    { intro y. unfold vget. cbn [c_vars]. rewrite dict_get_set, V. reflexivity. }
    assert (EX : forall y, bytes_eqb y x = false <-> y <> x).
    { intro y. rewrite <- (bytes_eqb_iff y x). destruct (bytes_eqb y x); split; congruence. }
    split; [|split; [|split; [|split]]].
    + constructor; cbn [c_used c_min].
      * apply (i_range _ I1). * apply (i_min _ I1). * apply (i_low _ I1).
      * intros y z. rewrite G. destruct (bytes_eqb y x); intro Hy.
        -- injection Hy as <-. rewrite U. now left.
        -- rewrite U. right. now apply (i_vars _ I y).
      * intros y z w. rewrite !G. destruct (bytes_eqb y x) eqn:Ey, (bytes_eqb z x) eqn:Ez; intros Hy Hz.
        -- apply bytes_eqb_iff in Ey, Ez. congruence.
        -- injection Hy as <-. exfalso. now apply N, (i_vars _ I z).
        -- injection Hz as <-. exfalso. now apply N, (i_vars _ I y).
        -- now apply (i_inj _ I y z w).
    + constructor; cbn [c_used c_subs].
      * exact S.
      * intros i Hi. rewrite U. now right.
      * intros y z Hy. rewrite G. destruct (bytes_eqb y x) eqn:Ey; [|exact Hy].
        apply bytes_eqb_iff in Ey. congruence.
      * intros y z Hy. rewrite G. destruct (bytes_eqb y x); [|congruence]. intro Hz. injection Hz as <-. exact N.
      * intros i Hi. rewrite U in Hi. destruct Hi as [<-|Hi]; [|now left].
        right. exists x. rewrite G, (proj2 (bytes_eqb_iff x x) eq_refl). reflexivity.
    + rewrite G, (proj2 (bytes_eqb_iff x x) eq_refl). reflexivity.
    + exact Hr.
    + intros y Hy. rewrite G. apply EX in Hy. now rewrite Hy.
Qed.

(** ** 32-bit arithmetic *)
Definition rng (v : Z) : Prop := 0 <= v < 2 ^ 32.
Lemma u32_rng : forall v, rng (u32 v).
Proof. intro. unfold rng, u32. apply Z.mod_pos_bound. reflexivity. Qed.
Lemma u32_id : forall v, rng v -> u32 v = v.
Proof. intros v H. unfold u32. now apply Z.mod_small. Qed.
Lemma land_rng : forall a m, 0 <= m -> 0 <= Z.land a m <= m.
Proof.
  intros a m Hm. split; [apply Z.land_nonneg; now right|].
  apply Z.ldiff_le; [lia|].
  apply Z.bits_inj'. intros n Hn. rewrite Z.ldiff_spec, Z.land_spec, Z.bits_0.
  destruct (Z.testbit a n), (Z.testbit m n); reflexivity.
Qed.
Lemma bits_rng : forall v, 0 <= v -> (forall n, 32 <= n -> Z.testbit v n = false) -> rng v.
Proof.
  intros v Hv H. split; [assumption|].
  destruct (Z.eq_dec v 0) as [->|]; [reflexivity|].
  destruct (Z_lt_dec v (2 ^ 32)); [assumption|]. exfalso.
  assert (32 <= Z.log2 v) by (apply Z.log2_le_pow2; lia).
  pose proof (Z.bit_log2 v ltac:(lia)). rewrite H in *; [discriminate|assumption].
Qed.
Lemma rng_bits : forall v n, rng v -> 32 <= n -> Z.testbit v n = false.
Proof.
  intros v n [H1 H2] Hn. destruct (Z.eq_dec v 0) as [->|]; [apply Z.bits_0|].
  apply Z.bits_above_log2; [assumption|]. assert (Z.log2 v < 32) by (apply Z.log2_lt_pow2; lia). lia.
Qed.

Lemma shiftr_rng : forall v n, rng v -> 0 <= n -> rng (Z.shiftr v n).
Proof.
  intros v n H Hn. apply bits_rng.
  - apply Z.shiftr_nonneg, H.
  - intros k Hk. rewrite Z.shiftr_spec by lia. apply rng_bits; [assumption|lia].
Qed.

Lemma arith_rng : forall op a b r, arith op a b = Some r -> rng r.
Proof.
  intros op a b r H. unfold arith in H.
  pose proof (u32_rng a) as Ha. pose proof (u32_rng b) as Hb.
  assert (Hm : 0 <= u32 b mod 32) by (apply Z.mod_pos_bound; reflexivity).
  repeat match type of H with
  | match ?x with _ => _ end = Some _ => destruct x; try discriminate H
  end; apply some_inj in H; subst r; try apply u32_rng.
  all: try (split; [|]; unfold rng in *; lia).
  all: match goal with
  | |- rng (Z.land _ _) => apply bits_rng; [apply Z.land_nonneg; left; apply Ha|]; intros n Hn;
      rewrite Z.land_spec, (rng_bits _ _ Ha Hn); reflexivity
  | |- rng (Z.lor _ _) => apply bits_rng; [apply Z.lor_nonneg; split; [apply Ha|apply Hb]|]; intros n Hn;
      rewrite Z.lor_spec, (rng_bits _ _ Ha Hn), (rng_bits _ _ Hb Hn); reflexivity
  | |- rng (Z.lxor _ _) => apply bits_rng; [apply Z.lxor_nonneg; split; intro; [apply Hb|apply Ha]|]; intros n Hn;
      rewrite Z.lxor_spec, (rng_bits _ _ Ha Hn), (rng_bits _ _ Hb Hn); reflexivity
  | |- rng (Z.shiftr _ _) => now apply shiftr_rng
  | |- rng (if ?c then _ else ?x / ?y) => destruct c eqn:E; [assumption|]; unfold rng in *;
      (split; [apply Z.div_pos; lia|]); apply Z.div_lt_upper_bound; nia
  | |- rng (if ?c then _ else ?x mod ?y) => destruct c eqn:E; [assumption|]; unfold rng in *;
      pose proof (Z.mod_pos_bound x y); lia
  | |- rng (if ?c then _ else u32 _) => destruct c; [assumption|apply u32_rng]
  | |- rng (if ?c then 1 else if ?d then _ else _) => destruct c; [unfold rng; lia|]; destruct d; unfold rng; lia
  | |- _ => idtac
  end.
Qed.
