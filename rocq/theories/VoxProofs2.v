(** Colours, totality and the three zoom levels of the voxel renderer. *)
From Verif Require Import Base BaseFacts VoxModel SpecVox VoxProofs.
From Coq Require Import ZArith List Bool Lia.
Import ListNotations.
Open Scope Z_scope.

Lemma safe_in c : in_safe c <-> In c safe_colours.
Proof.
  unfold safe_colours, in_safe. rewrite in_app_iff, in_map_iff. cbn [In]. split.
  - intros [H|H]; [left|right; left; lia]. exists (Z.to_nat c). split; [lia|]. apply in_seq. lia.
  - intros [(n & <- & I)|[<-|[]]]; [|lia]. apply in_seq in I. lia.
Qed.

Lemma remap_safe f c : in_safe c -> make_remap f c = match f with None => c | Some g => g c end.
Proof.
  intros S. unfold make_remap. destruct f as [g|]; [|reflexivity].
  replace (existsb (Z.eqb c) safe_colours) with true; [reflexivity|]. symmetry.
  apply existsb_exists. exists c. split; [apply safe_in; exact S|apply Z.eqb_refl].
Qed.

Lemma safe_range c : in_safe c -> 1 <= c < 256.
Proof. unfold in_safe. lia. Qed.

Lemma lor_bits c f b : 0 <= c < 256 -> Z.lor c (face_bits f b) = c + face_bits f b.
Proof.
  intros H.
  assert (K : forall n, 0 <= n -> Z.lor c (n * 256) = c + n * 256).
  { intros n Hn. pose proof (lor_shift c n 8) as L. rewrite Z.shiftl_mul_pow2 in L by lia.
    change (2 ^ 8) with 256 in L. rewrite L by lia. lia. }
  destruct f; cbn [face_bits]; [destruct b|..].
  - apply (K 1); lia.
  - apply (K 0); lia.
  - apply (K 2); lia.
  - apply (K 3); lia.
Qed.

Lemma palette_zero k : house_palette k 0 = 0.
Proof.
  unfold house_palette, make_remap. change (0 / 256) with 0. change (0 mod 256) with 0.
  destruct (k_z k); [|reflexivity].
  replace (existsb (Z.eqb 0) safe_colours) with false; [reflexivity|]. symmetry.
  apply not_true_is_false. intros E. apply existsb_exists in E as (c & I & Q). apply Z.eqb_eq in Q. subst c.
  apply safe_in in I. unfold in_safe in I. lia.
Qed.

Lemma palette_face k f b c : in_safe c -> house_palette k (Z.lor c (face_bits f b)) = shade k f c.
Proof.
  intros S. pose proof (safe_range c S). rewrite lor_bits by lia. unfold house_palette, shade.
  replace ((c + face_bits f b) mod 256) with c
    by (destruct f; [destruct b|..]; cbn [face_bits]; Z.to_euclidean_division_equations; lia).
  replace ((c + face_bits f b) / 256) with (face_bits f b / 256)
    by (destruct f; [destruct b|..]; cbn [face_bits]; Z.to_euclidean_division_equations; lia).
  destruct f; [destruct b|..]; cbn [face_bits].
  - change (256 / 256) with 1. cbv iota. apply remap_safe. exact S.
  - change (0 / 256) with 0. cbv iota. apply remap_safe. exact S.
  - change (512 / 256) with 2. cbv iota. apply remap_safe. exact S.
  - change (768 / 256) with 3. cbv iota. apply remap_safe. exact S.
Qed.

Lemma shade_safe k f c : lib_ok k -> in_safe c -> in_safe (shade k f c).
Proof.
  intros (_ & Z1 & X1 & Y1) S. unfold shade, maps_safe in *.
  destruct f; [destruct (k_z k)|destruct (k_x k)|destruct (k_y k)]; auto.
Qed.

(** ** Totality *)

Lemma ttd_some k r i : reader_ok r -> 1 <= i <= 255 ->
  exists q c, r_rgba r = Some q /\ ttd_palette k r i = Some c /\ index_colour k q i c.
Proof.
  intros (_ & q & Q & L) I. unfold ttd_palette. rewrite Q. cbn [bind].
  destruct (Z.to_nat i) as [|n] eqn:E; [lia|]. cbn [nth_error].
  destruct (nth_error q n) as [[[[a b] c] d]|] eqn:N.
  - cbn [bind]. eexists q, _. split; [reflexivity|]. split; [reflexivity|].
    exists a, b, c, d. split; [|reflexivity]. replace (Z.to_nat (i - 1)) with n by lia. exact N.
  - apply nth_error_None in N. lia.
Qed.

Lemma colours_total k r : reader_ok r -> forall l, Forall (fun v => 1 <= vi v <= 255) l ->
  exists cc, colours_of k r l = Some cc.
Proof.
  intros R. induction l as [|v l IH]; intros F; [exists []; reflexivity|].
  inversion F as [|? ? A B]; subst. destruct (ttd_some k r (vi v) R A) as (q & c & _ & E & _).
  destruct (IH B) as [cc E2]. cbn [colours_of]. rewrite E, E2. eexists. reflexivity.
Qed.

Lemma colours_meaning k r q : r_rgba r = Some q -> forall l cc, Forall (fun v => 1 <= vi v <= 255) l ->
  colours_of k r l = Some cc -> Forall2 (fun v p => fst p = v /\ index_colour k q (vi v) (snd p)) l cc.
Proof.
  intros Q. induction l as [|v l IH]; intros cc F E; cbn [colours_of] in E.
  - apply some_inj in E. subst. constructor.
  - inversion F as [|? ? A B]; subst.
    destruct (ttd_palette k r (vi v)) as [c|] eqn:T; [|discriminate]. cbn [bind] in E.
    destruct (colours_of k r l) as [m|]; [|discriminate]. cbn [bind] in E. apply some_inj in E. subst cc.
    constructor; [|exact (IH m B eq_refl)]. split; [reflexivity|]. cbn [snd].
    unfold ttd_palette in T. rewrite Q in T. cbn [bind] in T.
    destruct (Z.to_nat (vi v)) as [|n] eqn:N; [lia|]. cbn [nth_error] in T.
    destruct (nth_error q n) as [[[[a b] e] d]|] eqn:NE; [|discriminate]. cbn [bind] in T. apply some_inj in T. subst c.
    exists a, b, e, d. split; [|reflexivity]. replace (Z.to_nat (vi v - 1)) with n by lia. exact NE.
Qed.

Lemma house_total k r : reader_ok r -> r_voxels r <> [] -> exists p, house_load k r = Some p.
Proof.
  intros R N. destruct (colours_total k r R (r_voxels r) (proj1 R)) as [cc EC].
  unfold house_load. rewrite EC. cbn [bind].
  assert (M : forall f, exists m, amin (map f (r_voxels r)) = Some m) by (intros f; destruct (r_voxels r); [congruence|eexists; reflexivity]).
  assert (M' : forall f, exists m, amax (map f (r_voxels r)) = Some m) by (intros f; destruct (r_voxels r); [congruence|eexists; reflexivity]).
  destruct (M col_of) as [xmin E1], (M' col_of) as [xmax E2], (M row_of) as [ymin E3], (M' row_of) as [ymax E4].
  rewrite E1, E2, E3, E4. cbn [bind].
  apply amin_least in E1, E3. apply amax_greatest in E2, E4.
  assert (FIT : Forall (fits (ymax - ymin + 3) (xmax - xmin + 2) house_stencil) (house_spots k xmin ymin cc)).
  { apply Forall_forall. intros s I. unfold house_spots in I. apply in_map_iff in I as ([v c] & <- & I).
    apply filter_In in I as [I _].
    assert (IV : In v (r_voxels r)).
    { rewrite <- (colours_of_fst k r _ _ EC). apply in_map_iff. exists (v, c). split; [reflexivity|exact I]. }
    pose proof (proj2 E1 v IV). pose proof (proj2 E2 v IV). pose proof (proj2 E3 v IV). pose proof (proj2 E4 v IV).
    intros dx dy side D. cbn [sx sy fst].
    unfold house_stencil in D. cbn [In] in D.
    repeat (destruct D as [D|D]; [apply pair_inj in D as [D _]; apply pair_inj in D as [<- <-]; lia|]). destruct D. }
  destruct (paint_all_px _ _ house_stencil _ blank FIT) as (st & E & P). rewrite E. eexists. reflexivity.
Qed.

Lemma house_nonempty k r p : house_load k r = Some p -> r_voxels r <> [].
Proof.
  unfold house_load. intros E N. rewrite N in E. cbn in E. discriminate.
Qed.

Lemma colours_safe k r cc : lib_ok k -> colours_of k r (r_voxels r) = Some cc ->
  forall v c, In (v, c) cc -> in_safe c.
Proof.
  intros (B & _). generalize (r_voxels r) as l. intros l. revert cc.
  induction l as [|v l IH]; intros cc E v0 c0 I; cbn [colours_of] in E.
  - apply some_inj in E. subst. destruct I.
  - destruct (ttd_palette k r (vi v)) as [c|] eqn:T; [|discriminate]. cbn [bind] in E.
    destruct (colours_of k r l) as [m|] eqn:M; [|discriminate]. cbn [bind] in E. apply some_inj in E. subst cc.
    destruct I as [I|I]; [|exact (IH m eq_refl v0 c0 I)].
    apply pair_inj in I as [<- <-]. unfold ttd_palette in T.
    destruct (r_rgba r) as [q|]; [|discriminate]. cbn [bind] in T.
    destruct (nth_error ((0, 0, 0, 0) :: q) (Z.to_nat (vi v))) as [[[[a b] e] d]|]; [|discriminate].
    cbn [bind] in T. apply some_inj in T. subst c. apply B.
Qed.

(** ** Blowing up to four times the size *)

Definition has (l : list (Z * Z)) (i j : Z) : bool := existsb (fun o => (fst o =? i) && (snd o =? j)) l.

Lemma fold_set l col y x : forall out Y X,
  fold_left (fun out o => set_px out (2 * y + snd o) (4 * x + fst o) col) l out Y X =
  if has l (X - 4 * x) (Y - 2 * y) then col else out Y X.
Proof.
  induction l as [|[a b] l IH]; intros out Y X; cbn [fold_left]; [reflexivity|].
  rewrite IH. unfold has. cbn [existsb fst snd]. unfold set_px.
  destruct (existsb (fun o : Z * Z => (fst o =? X - 4 * x) && (snd o =? Y - 2 * y)) l) eqn:E.
  - rewrite orb_true_r. reflexivity.
  - rewrite orb_false_r.
    destruct (Z.eqb_spec Y (2 * y + b)), (Z.eqb_spec X (4 * x + a)),
      (Z.eqb_spec a (X - 4 * x)), (Z.eqb_spec b (Y - 2 * y)); cbn [andb]; try reflexivity; lia.
Qed.

Lemma blow_px_at k p y x out Y X :
  blow_px k p y x out Y X =
  if has (side_pixels (side_of p y x)) (X - 4 * x) (Y - 2 * y) then house_palette k (p_px p y x) else out Y X.
Proof. apply fold_set. Qed.

(** which offsets a pattern has *)
Definition pat_top (side : Z) (i : Z) : bool := if (side =? 1) || (side =? 2) then i <? 2 else 2 <=? i.
Definition pat_bot (side : Z) (i : Z) : bool := if (side =? 0) || (side =? 2) then 2 <=? i else i <? 2.

Lemma has_pat side i j : 0 <= side <= 3 ->
  has (side_pixels side) i j =
  (0 <=? i) && (i <? 4) && ((j =? 1) || ((j =? 0) && pat_top side i) || ((j =? 2) && pat_bot side i)).
Proof.
  intros S. assert (C : side = 0 \/ side = 1 \/ side = 2 \/ side = 3) by lia.
  destruct (Z.leb_spec 0 i); cbn [andb].
  - destruct (Z.ltb_spec i 4); cbn [andb].
    + assert (I : i = 0 \/ i = 1 \/ i = 2 \/ i = 3) by lia.
      destruct (Z.eqb_spec j 0) as [->|]; [|destruct (Z.eqb_spec j 1) as [->|]; [|destruct (Z.eqb_spec j 2) as [->|]]];
      destruct C as [-> | [-> | [-> | ->]]]; destruct I as [-> | [-> | [-> | ->]]]; try reflexivity;
      unfold has; cbn [side_pixels existsb fst snd orb andb];
      repeat match goal with |- context [?a =? j] => destruct (Z.eqb_spec a j); [lia|] end; reflexivity.
    + destruct C as [-> | [-> | [-> | ->]]]; unfold has; cbn [side_pixels existsb fst snd];
      repeat match goal with |- context [?a =? i] => destruct (Z.eqb_spec a i); [lia|] end; reflexivity.
  - destruct C as [-> | [-> | [-> | ->]]]; unfold has; cbn [side_pixels existsb fst snd];
      repeat match goal with |- context [?a =? i] => destruct (Z.eqb_spec a i); [lia|] end; reflexivity.
Qed.

(** a fold that only reacts to one element of the range *)
Lemma fold_one {A} (f : A -> Z -> A) n a : forall c,
  (forall b i, i <> c -> f b i = b) ->
  fold_left f (zrange n) a = if (0 <=? c) && (c <? n) then f a c else a.
Proof.
  intros c H. unfold zrange.
  assert (K : forall m s a, fold_left f (map Z.of_nat (seq s m)) a =
    if (Z.of_nat s <=? c) && (c <? Z.of_nat s + Z.of_nat m) then f a c else a).
  { induction m as [|m IH]; intros s b; cbn [seq map fold_left].
    - destruct (Z.leb_spec (Z.of_nat s) c), (Z.ltb_spec c (Z.of_nat s + Z.of_nat 0)); cbn [andb]; try reflexivity; lia.
    - rewrite IH. destruct (Z.eq_dec (Z.of_nat s) c) as [E|E].
      + subst c. replace (Z.of_nat (S s) <=? Z.of_nat s) with false by (symmetry; apply Z.leb_gt; lia).
        rewrite Z.leb_refl. replace (Z.of_nat s <? Z.of_nat s + Z.of_nat (S m)) with true by (symmetry; apply Z.ltb_lt; lia).
        reflexivity.
      + rewrite (H b (Z.of_nat s)) by exact E.
        replace (Z.of_nat (S s) <=? c) with (Z.of_nat s <=? c)
          by (destruct (Z.leb_spec (Z.of_nat s) c), (Z.leb_spec (Z.of_nat (S s)) c); try reflexivity; lia).
        replace (Z.of_nat (S s) + Z.of_nat m) with (Z.of_nat s + Z.of_nat (S m)) by lia. reflexivity. }
  rewrite K. rewrite Z.add_0_l. destruct (Z.ltb_spec c n) as [L|L].
  - destruct (Z.leb_spec 0 c) as [L0|L0]; cbn [andb].
    + replace (c <? Z.of_nat (Z.to_nat n)) with true by (symmetry; apply Z.ltb_lt; lia).
      replace (Z.of_nat 0 <=? c) with true by (symmetry; apply Z.leb_le; lia). reflexivity.
    + replace (Z.of_nat 0 <=? c) with false by (symmetry; apply Z.leb_gt; lia). reflexivity.
  - destruct (Z.leb_spec 0 c) as [L0|L0]; cbn [andb].
    + replace (c <? Z.of_nat (Z.to_nat n)) with false by (symmetry; apply Z.ltb_ge; lia).
      rewrite andb_false_r. reflexivity.
    + replace (Z.of_nat 0 <=? c) with false by (symmetry; apply Z.leb_gt; lia). reflexivity.
Qed.
