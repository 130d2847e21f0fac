(** The reader on files written by the editor, and the stacking of faces. *)
From Verif Require Import Base BaseFacts VoxModel SpecVox VoxProofs VoxProofs2 VoxProofs3.
From Coq Require Import ZArith List Bool Lia.
Import ListNotations.
Open Scope Z_scope.

(** ** Faces on top of each other *)

Lemma raw_bits c f b : in_safe c -> raw (Z.lor c (face_bits f b)) = face_bits f b / 256.
Proof.
  intros S. pose proof (safe_range c S). rewrite lor_bits by lia. unfold raw.
  replace (c + face_bits f b =? 0) with false
    by (symmetry; apply Z.eqb_neq; destruct f; [destruct b|..]; cbn [face_bits]; lia).
  destruct f; [destruct b|..]; cbn [face_bits]; Z.to_euclidean_division_equations; lia.
Qed.

Lemma house_valid k r p : lib_ok k -> house_load k r = Some p -> valid p.
Proof.
  intros K E. destruct (house_pixels k r p E) as (cc & xmin & xmax & ymin & ymax & EC & _ & _ & _ & _ & _ & _ & P).
  intros y x. destruct (P y x) as [[-> _] | (i & v & c & f & [[N _] _] & ->)]; [lia|].
  pose proof (safe_range c (colours_safe k r cc K EC v c (nth_error_In _ _ N))).
  rewrite lor_bits by lia. destruct f; [destruct (negb (x + xmin =? col_of v))|..]; cbn [face_bits]; lia.
Qed.

Lemma face_inv v Y X f : face_of v Y X = Some f ->
  (X = col_of v \/ X = col_of v + 1) /\
  match f with
  | Top => Y = row_of v
  | LeftFace => X = col_of v /\ (Y = row_of v + 1 \/ Y = row_of v + 2)
  | RightFace => X = col_of v + 1 /\ (Y = row_of v + 1 \/ Y = row_of v + 2)
  end.
Proof.
  unfold face_of, col_of, row_of. intros H.
  repeat match type of H with context [?a =? ?b] => destruct (Z.eqb_spec a b) end; cbn [orb] in H;
    try discriminate H; apply some_inj in H; subst f; lia.
Qed.

Lemma face_left v Y : Y = row_of v + 1 \/ Y = row_of v + 2 -> face_of v Y (col_of v) = Some LeftFace.
Proof.
  intros H. unfold face_of, col_of, row_of in *.
  repeat match goal with |- context [?a =? ?b] => destruct (Z.eqb_spec a b) end; cbn [orb]; try reflexivity; lia.
Qed.
Lemma face_right v Y : Y = row_of v + 1 \/ Y = row_of v + 2 -> face_of v Y (col_of v + 1) = Some RightFace.
Proof.
  intros H. unfold face_of, col_of, row_of in *.
  repeat match goal with |- context [?a =? ?b] => destruct (Z.eqb_spec a b) end; cbn [orb]; try reflexivity; lia.
Qed.

Lemma parity v : (row_of v - col_of v) mod 2 = 0.
Proof. unfold row_of, col_of. Z.to_euclidean_division_equations. lia. Qed.

(** two voxels cannot each be in front of the other *)
Lemma front_clash d m Y X Y' X' i v c f i' v' c' f' g g' :
  Front d m Y X i v c f -> Front d m Y' X' i' v' c' f' ->
  face_of v' Y X = Some g -> face_of v Y' X' = Some g' -> v = v' /\ i = i'.
Proof.
  intros [[N [C F]] M] [[N' [C' F']] M'] G G'.
  destruct (M i' v' c' g (conj N' (conj C' G))) as [A|[A L]];
  destruct (M' i v c g' (conj N (conj C G'))) as [B|[B L']]; try lia.
  assert (i = i') by lia. subst i'. rewrite N in N'. apply some_inj, pair_inj in N' as [-> _]. split; reflexivity.
Qed.

Lemma house_stacked k r p y x : lib_ok k -> house_load k r = Some p ->
  p_px p y x <> 0 -> p_px p (y + 1) x <> 0 -> stacked (raw (p_px p y x)) (raw (p_px p (y + 1) x)).
Proof.
  intros K E NA NB. destruct (house_pixels k r p E) as (cc & xmin & xmax & ymin & ymax & EC & _ & _ & _ & _ & _ & _ & P).
  destruct (P y x) as [[Z0 _] | (i & v & c & f & F1 & E1)]; [congruence|].
  destruct (P (y + 1) x) as [[Z0 _] | (i' & v' & c' & f' & F2 & E2)]; [congruence|].
  rewrite E1, E2.
  rewrite !raw_bits by (eapply (colours_safe k r cc K EC); first [exact (nth_error_In _ _ (proj1 (proj1 F1))) | exact (nth_error_In _ _ (proj1 (proj1 F2)))]).
  pose proof (face_inv _ _ _ _ (proj2 (proj2 (proj1 F1)))) as I1.
  pose proof (face_inv _ _ _ _ (proj2 (proj2 (proj1 F2)))) as I2.
  pose proof (parity v) as P1. pose proof (parity v') as P2.
  destruct I1 as [D1 I1], I2 as [D2 I2].
  split; intros A.
  - (* left half of a top face above *)
    destruct f; [|cbn [face_bits] in A; discriminate A..].
    destruct (Z.eqb_spec (x + xmin) (col_of v)) as [X1|X1]; cbn [negb face_bits] in A; [|discriminate A].
    split; intros B.
    + destruct f'; [|cbn [face_bits] in B; discriminate B..].
      destruct (Z.eqb_spec (x + xmin) (col_of v')) as [X2|X2]; cbn [negb face_bits] in B; [|discriminate B].
      Z.to_euclidean_division_equations; lia.
    + destruct f'; [destruct (negb (x + xmin =? col_of v')); discriminate B|discriminate B|].
      destruct I2 as [X2 R2].
      assert (R : row_of v' + 1 = row_of v) by (Z.to_euclidean_division_equations; lia).
      destruct (front_clash _ _ _ _ _ _ _ _ _ _ _ _ _ _ RightFace LeftFace F1 F2) as [V _].
      * rewrite X2. apply face_right. lia.
      * rewrite X1. apply face_left. lia.
      * subst v'. lia.
  - destruct f; [|cbn [face_bits] in A; discriminate A..].
    destruct (Z.eqb_spec (x + xmin) (col_of v)) as [X1|X1]; cbn [negb face_bits] in A; [discriminate A|].
    assert (X1' : x + xmin = col_of v + 1) by lia.
    split; intros B.
    + destruct f'; [|cbn [face_bits] in B; discriminate B..].
      destruct (Z.eqb_spec (x + xmin) (col_of v')) as [X2|X2]; cbn [negb face_bits] in B; [discriminate B|].
      Z.to_euclidean_division_equations; lia.
    + destruct f'; [destruct (negb (x + xmin =? col_of v')); discriminate B| |discriminate B].
      destruct I2 as [X2 R2].
      assert (R : row_of v' + 1 = row_of v) by (Z.to_euclidean_division_equations; lia).
      destruct (front_clash _ _ _ _ _ _ _ _ _ _ _ _ _ _ LeftFace RightFace F1 F2) as [V _].
      * rewrite X2. apply face_left. lia.
      * rewrite X1'. apply face_right. lia.
      * subst v'. lia.
Qed.

(** ** The reader *)

Lemma rd_le4 n d : 0 <= n < 2 ^ 32 -> rd_I (le4 n ++ d) = Some (n, d).
Proof.
  intros H. unfold le4. cbn [app].
  rewrite rd_I_cons by (apply Z.mod_pos_bound; lia). do 2 f_equal. change (2 ^ 32) with 4294967296 in H.
  Z.to_euclidean_division_equations. lia.
Qed.

Lemma beq_refl a : beq a a = true.
Proof. induction a as [|x a IH]; [reflexivity|]. cbn [beq]. rewrite Z.eqb_refl. exact IH. Qed.
Lemma beq_true a : forall b, beq a b = true -> a = b.
Proof.
  induction a as [|x a IH]; intros [|y b] E; cbn [beq] in E; try discriminate; [reflexivity|].
  apply andb_true_iff in E as [A B]. apply Z.eqb_eq in A. rewrite A, (IH b B). reflexivity.
Qed.
Lemma beq_false a b : a <> b -> beq a b = false.
Proof. intros N. apply not_true_is_false. intros E. apply N, beq_true, E. Qed.

(** one chunk *)
Definition chunk_step (id : bytes) (d : bytes) (r : reader) : option reader :=
  do r <- (if beq id id_XYZI then read_xyzi d r else Some r);
  (if beq id id_SIZE then read_size d r else if beq id id_RGBA then read_rgba d r else Some r).

Lemma read_chunk fuel id m content rest r : length id = 4%nat -> 0 <= m < 2 ^ 32 -> len content < 2 ^ 32 ->
  read_chunks (S fuel) (chunk id m content ++ rest) r =
  do r <- chunk_step id (content ++ rest) r; read_chunks fuel rest r.
Proof.
  intros L M C. destruct id as [|c0 [|c1 [|c2 [|c3 [|c4 id]]]]]; try discriminate L.
  unfold chunk. rewrite <- !app_assoc.
  change ([c0; c1; c2; c3] ++ ?a) with (c0 :: c1 :: c2 :: c3 :: a). cbn [read_chunks].
  assert (N : 0 <= len content < 2 ^ 32) by (unfold len in *; lia).
  rewrite (rd_le4 _ _ N). cbn [bind]. rewrite (rd_le4 _ _ M). cbn [bind]. unfold chunk_step.
  replace (skipn (Z.to_nat (len content)) (content ++ rest)) with rest.
  - destruct (if beq [c0; c1; c2; c3] id_XYZI then read_xyzi (content ++ rest) r else Some r); reflexivity.
  - unfold len. rewrite Nat2Z.id. rewrite skipn_app, skipn_all, Nat.sub_diag. reflexivity.
Qed.

Lemma chunk_other id d r : id <> SIZE -> id <> XYZI -> id <> RGBA -> chunk_step id d r = Some r.
Proof.
  intros A B C. unfold chunk_step. change id_XYZI with XYZI. change id_SIZE with SIZE. change id_RGBA with RGBA.
  rewrite (beq_false id XYZI B), (beq_false id SIZE A), (beq_false id RGBA C). reflexivity.
Qed.

Lemma chunk_len id m content : length (chunk id m content) = (length id + 8 + length content)%nat.
Proof. unfold chunk, le4. rewrite !app_length. cbn [length]. lia. Qed.

Lemma read_others l : Forall other_ok l -> forall fuel rest r, (length (other_bytes l ++ rest) < fuel)%nat ->
  exists fuel', (length rest < fuel')%nat /\
  read_chunks fuel (other_bytes l ++ rest) r = read_chunks fuel' rest r.
Proof.
  induction l as [|o l IH]; intros F fuel rest r L.
  - exists fuel. split; [exact L|reflexivity].
  - inversion F as [|? ? (I & N1 & N2 & N3 & M & C) B]; subst.
    unfold other_bytes in *. cbn [map concat] in *. rewrite <- app_assoc in *.
    destruct fuel as [|fuel]; [lia|].
    rewrite read_chunk by assumption. rewrite chunk_other by assumption. cbn [bind].
    apply (IH B). rewrite app_length, chunk_len in L. lia.
Qed.

Lemma read_quads_ok l rest : read_quads (length l) (quads l ++ rest) = Some l.
Proof.
  induction l as [|[[[a b] c] d] l IH]; [reflexivity|].
  change (quads ((a, b, c, d) :: l)) with ([a; b; c; d] ++ quads l).
  rewrite <- app_assoc. change ([a; b; c; d] ++ ?x) with (a :: b :: c :: d :: x).
  cbn [length read_quads]. rewrite IH. reflexivity.
Qed.

Lemma quads_len l : length (quads l) = (4 * length l)%nat.
Proof.
  induction l as [|[[[a b] c] d] l IH]; [reflexivity|].
  change (quads ((a, b, c, d) :: l)) with ([a; b; c; d] ++ quads l). rewrite app_length, IH. cbn [length]. lia.
Qed.

Lemma quads_app a b : quads (a ++ b) = quads a ++ quads b.
Proof. unfold quads. rewrite map_app, concat_app. reflexivity. Qed.
