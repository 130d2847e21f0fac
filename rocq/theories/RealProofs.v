(** Proofs for SpriteModel: real sprite records, sounds, RGBA shortcut. *)
From Coq Require Import ZArith List Bool Lia.
From Verif Require Import Base BaseFacts DecodeModel SpecDecode DecodeProofs ChunkProofs SpriteModel SpecSprite
  SpriteProofs ContainerModel RecordsProofs2.
Import ListNotations.
Open Scope Z_scope.

Lemma layer_concat_len : forall h w k l, is_layer h w k l -> 0 <= w -> len (concat l) = w * h.
Proof.
  intros h w k l [L F] Hw. subst h. induction F as [|row l [Lr _] F IH]; [cbn; lia|].
  cbn [concat]. unfold len in *. rewrite app_length. cbn [length]. rewrite Nat2Z.inj_add, IH, Nat2Z.inj_succ, Lr. lia.
Qed.

Lemma concat_pixel : forall w (l : layer) y x p, 0 <= w -> Forall (fun row => Z.of_nat (length row) = w) l ->
  0 <= y -> 0 <= x < w -> pixel_at l y x p -> nth_error (concat l) (Z.to_nat (y * w + x)) = Some p.
Proof.
  intros w l y x p Hw F Hy Hx (row & A & B).
  replace y with (Z.of_nat (Z.to_nat y)) by lia. revert A. generalize (Z.to_nat y) as n. clear Hy y.
  intros n; revert l F. induction n as [|n IH]; intros [|r l] F A; try discriminate; cbn [nth_error] in A;
    inversion_clear F as [|? ? F1 F2]; cbn [concat].
  - injection A as ->. rewrite nth_error_app1 by lia. rewrite <- B. f_equal. 
  - assert (0 <= Z.of_nat n * w) by (apply Z.mul_nonneg_nonneg; lia).
    rewrite nth_error_app2 by lia. rewrite <- (IH l F2 A). f_equal. lia.
Qed.

Lemma reshape_ok : forall h w k l, is_layer h w k l -> 0 <= w -> reshape (w * h) l = Some (concat l).
Proof.
  intros h w k l L Hw. unfold reshape. cbn zeta. rewrite (layer_concat_len h w k l L Hw), Z.eqb_refl. reflexivity.
Qed.

Lemma has_shape_ok : forall h w k l, is_layer h w k l -> has_shape h w k l = true.
Proof.
  intros h w k l [L F]. unfold has_shape, len. rewrite L, Z.eqb_refl. cbn [andb].
  apply forallb_forall. intros row I. rewrite Forall_forall in F. destruct (F row I) as [Lr Fr].
  apply andb_true_iff. split; [apply Z.eqb_eq; exact Lr|].
  apply forallb_forall. intros p Ip. rewrite Forall_forall in Fr. apply Nat.eqb_eq. apply Fr, Ip.
Qed.

Lemma zip_nth : forall a b i p q, nth_error a i = Some p -> nth_error b i = Some q ->
  nth_error (zip_pixels a b) i = Some (p ++ q).
Proof.
  induction a as [|x a IH]; intros [|y b] [|i] p q A B; try discriminate; cbn in *.
  - injection A as ->. injection B as ->. reflexivity.
  - apply IH; assumption.
Qed.
Lemma zip_length : forall a b, length a = length b -> length (zip_pixels a b) = length a.
Proof. induction a as [|x a IH]; intros [|y b] L; try discriminate; cbn in *; [reflexivity|]. rewrite IH; lia. Qed.

Lemma concat_bytes : forall h w k l, is_layer h w k l -> Forall (fun p => length p = k /\ Forall (fun c => 0 <= c < 256) p) (concat l).
Proof.
  intros h w k l [_ F]. induction F as [|row l [_ Fr] F IH]; [constructor|]. cbn [concat]. apply Forall_app. split; assumption.
Qed.

(** What the pixel list of some stacked layers looks like. *)
Definition is_pixels (n : Z) (k : nat) (px : list (list Z)) : Prop :=
  len px = n /\ Forall (fun p => length p = k /\ Forall (fun c => 0 <= c < 256) p) px.

Lemma zip_pixels_ok : forall n k k' a b, is_pixels n k a -> is_pixels n k' b -> is_pixels n (k + k') (zip_pixels a b).
Proof.
  intros n k k' a b [La Fa] [Lb Fb]. assert (L : length a = length b) by (unfold len in *; lia).
  split; [unfold len in *; rewrite zip_length by exact L; lia|].
  clear La Lb. revert b L Fb. induction Fa as [|x a [X1 X2] Fa IH]; intros [|y b] L Fb; try discriminate; [constructor|].
  inversion_clear Fb as [|? ? [Y1 Y2] Fb']. cbn [zip_pixels]. constructor; [|apply IH; [cbn in L; lia|exact Fb']].
  split; [rewrite app_length; lia|apply Forall_app; split; assumption].
Qed.

Lemma concat_pixels_len : forall n k px, is_pixels n k px -> len (concat px) = n * Z.of_nat k.
Proof.
  intros n k px [L F]. rewrite (concat_len px k); [rewrite L; reflexivity|]. revert F. apply Forall_impl. tauto.
Qed.
Lemma concat_pixels_bytes : forall n k px, is_pixels n k px -> Forall (fun b => 0 <= b < 256) (concat px).
Proof.
  intros n k px [_ F]. induction F as [|p px [_ Fp] F IH]; [constructor|]. cbn [concat]. apply Forall_app. split; assumption.
Qed.

(** The layer list and its pixels, as info_raw builds them. *)
Definition kept_mask (d : layers) : option layer :=
  match l_mask d with
  | Some m => if (match l_rgb d, l_alpha d with None, None => true | _, _ => false end) || existsb (existsb nonzero) m
              then Some m else None
  | None => None
  end.
Definition bit (o : option layer) (n : Z) : Z := match o with Some _ => n | None => 0 end.

Lemma info_raw_ok : forall d, is_picture (l_h d) (l_w d) (pic d) -> 0 <= l_w d -> 0 <= l_h d ->
  (l_rgb d <> None \/ l_alpha d <> None \/ l_mask d <> None) ->
  exists px, info_raw d = Some (64 + bit (l_rgb d) 1 + bit (l_alpha d) 2 + bit (kept_mask d) 4, concat px)
    /\ is_pixels (l_w d * l_h d)
         (Z.to_nat (bit (l_rgb d) 3 + bit (l_alpha d) 1 + bit (kept_mask d) 1)) px
    /\ forall y x r a m, 0 <= y < l_h d -> 0 <= x < l_w d ->
         layer_pixel (l_rgb d) y x r -> layer_pixel (l_alpha d) y x a -> layer_pixel (kept_mask d) y x m ->
         nth_error px (Z.to_nat (y * l_w d + x)) = Some (r ++ a ++ m).
Proof.
  intros d (P1 & P2 & P3) Hw Hh Ne. cbn [pic p_rgb p_alpha p_mask] in *.
  set (w := l_w d) in *. set (h := l_h d) in *.
  assert (Px : forall k l, is_layer h w k l -> is_pixels (w * h) k (concat l)).
  { intros k l L. split; [exact (layer_concat_len h w k l L Hw)|exact (concat_bytes h w k l L)]. }
  assert (Nth : forall k l y x p, is_layer h w k l -> 0 <= y < h -> 0 <= x < w -> pixel_at l y x p ->
     nth_error (concat l) (Z.to_nat (y * w + x)) = Some p).
  { intros k l y x p [_ F] Hy Hx Q. apply concat_pixel; [exact Hw| |lia|lia|exact Q].
    revert F. apply Forall_impl. tauto. }
  assert (Pk : forall l, kept_mask d = Some l -> is_layer h w 1 l).
  { intros l E. unfold kept_mask in E. destruct (l_mask d) as [m|]; [|discriminate].
    destruct ((match l_rgb d, l_alpha d with None, None => true | _, _ => false end) || existsb (existsb nonzero) m);
      [injection E as <-; apply P3; reflexivity|discriminate]. }
  assert (Kn : l_rgb d <> None \/ l_alpha d <> None \/ kept_mask d <> None).
  { unfold kept_mask. destruct (l_rgb d); [left; discriminate|]. destruct (l_alpha d); [right; left; discriminate|].
    right; right. destruct (l_mask d); [discriminate|]. destruct Ne as [N|[N|N]]; exfalso; apply N; reflexivity. }
  assert (E : info_raw d = 
     (do rgb <- (match l_rgb d with Some l => option_map Some (reshape (w * h) l) | None => Some None end);
      do alpha <- (match l_alpha d with Some l => option_map Some (reshape (w * h) l) | None => Some None end);
      do m <- (match kept_mask d with Some l => option_map Some (reshape (w * h) l) | None => Some None end);
      do px <- stack_pixels (optl rgb ++ optl alpha ++ optl m);
      Some (64 + bit (l_rgb d) 1 + bit (l_alpha d) 2 + bit (kept_mask d) 4, concat px))).
  { unfold info_raw, kept_mask, bit. fold w. fold h.
    destruct (l_rgb d), (l_alpha d), (l_mask d) as [m|]; cbn zeta iota; cbn [orb Z.add Z.eqb];
      try (destruct (existsb (existsb nonzero) m)); cbn [orb Z.eqb Pos.eqb Z.add Pos.add]; reflexivity. }
  rewrite E. clear E. revert Kn Pk P1 P2.
  generalize (l_rgb d) as rgb, (l_alpha d) as alpha, (kept_mask d) as mask.
  intros rgb alpha mask Kn Pk P1 P2.
  destruct rgb as [r|]; destruct alpha as [a|]; destruct mask as [m|];
    try (specialize (P1 _ eq_refl)); try (specialize (P2 _ eq_refl)); try (specialize (Pk _ eq_refl));
    try rewrite (reshape_ok h w 3 r P1 Hw); try rewrite (reshape_ok h w 1 a P2 Hw); try rewrite (reshape_ok h w 1 m Pk Hw);
    cbn [bind option_map optl app stack_pixels bit Z.add Z.to_nat Pos.to_nat layer_pixel].
  - exists (zip_pixels (concat r) (zip_pixels (concat a) (concat m))). split; [reflexivity|]. split.
    + apply (zip_pixels_ok (w * h) 3 2); [apply Px, P1|]. apply (zip_pixels_ok (w * h) 1 1); apply Px; assumption.
    + intros y x pr pa pm Hy Hx A B C. apply zip_nth; [exact (Nth _ _ _ _ _ P1 Hy Hx A)|].
      apply zip_nth; [exact (Nth _ _ _ _ _ P2 Hy Hx B)|exact (Nth _ _ _ _ _ Pk Hy Hx C)].
  - exists (zip_pixels (concat r) (concat a)). split; [reflexivity|]. split.
    + apply (zip_pixels_ok (w * h) 3 1); apply Px; assumption.
    + intros y x pr pa pm Hy Hx A B ->. rewrite app_nil_r.
      apply zip_nth; [exact (Nth _ _ _ _ _ P1 Hy Hx A)|exact (Nth _ _ _ _ _ P2 Hy Hx B)].
  - exists (zip_pixels (concat r) (concat m)). split; [reflexivity|]. split.
    + apply (zip_pixels_ok (w * h) 3 1); apply Px; assumption.
    + intros y x pr pa pm Hy Hx A -> C. 
      apply zip_nth; [exact (Nth _ _ _ _ _ P1 Hy Hx A)|exact (Nth _ _ _ _ _ Pk Hy Hx C)].
  - exists (concat r). split; [reflexivity|]. split; [apply Px, P1|].
    intros y x pr pa pm Hy Hx A -> ->. rewrite !app_nil_r. exact (Nth _ _ _ _ _ P1 Hy Hx A).
  - exists (zip_pixels (concat a) (concat m)). split; [reflexivity|]. split.
    + apply (zip_pixels_ok (w * h) 1 1); apply Px; assumption.
    + intros y x pr pa pm Hy Hx -> B C. change ([] ++ pa ++ pm) with (pa ++ pm).
      apply zip_nth; [exact (Nth _ _ _ _ _ P2 Hy Hx B)|exact (Nth _ _ _ _ _ Pk Hy Hx C)].
  - exists (concat a). split; [reflexivity|]. split; [apply Px, P2|].
    intros y x pr pa pm Hy Hx -> B ->. rewrite app_nil_r. exact (Nth _ _ _ _ _ P2 Hy Hx B).
  - exists (concat m). split; [reflexivity|]. split; [apply Px, Pk|].
    intros y x pr pa pm Hy Hx -> -> C. exact (Nth _ _ _ _ _ Pk Hy Hx C).
  - exfalso. destruct Kn as [N|[N|N]]; apply N; reflexivity.
Qed.

(** The literal-only compressor. *)
Lemma literals_ok : forall fuel raw out, (length raw <= fuel)%nat ->
  blocks_valid (length out) (literals fuel raw) /\ Forall (fun b => ~ self_overlapping b) (literals fuel raw)
  /\ fold_left block_out (literals fuel raw) out = out ++ raw.
Proof.
  induction fuel as [|fuel IH]; intros raw out L.
  - destruct raw; [|cbn in L; lia]. cbn. rewrite app_nil_r. split; [exact I|]. split; [constructor|reflexivity].
  - destruct raw as [|b raw]; [cbn [literals blocks_valid fold_left]; rewrite app_nil_r; split; [exact I|split; [constructor|reflexivity]]|].
    set (all := b :: raw) in *.
    change (literals (S fuel) all) with (Lit (firstn 128 all) :: literals fuel (skipn 128 all)).
    assert (La : (1 <= length all)%nat) by (unfold all; cbn; lia).
    assert (Lf : length (firstn 128 all) = Nat.min 128 (length all)) by apply firstn_length.
    destruct (IH (skipn 128 all) (out ++ firstn 128 all)) as (A & B & C).
    { rewrite skipn_length. lia. }
    cbn [blocks_valid block_valid block_size fold_left block_out]. split; [split|split].
    + lia.
    + rewrite app_length in A. rewrite Nat2Z.id. exact A.
    + constructor; [intros []|exact B].
    + rewrite C, <- app_assoc, firstn_skipn. reflexivity.
Qed.
Lemma store_compressor : compressor store.
Proof.
  intros raw _. exists (literals (length raw) raw). split; [reflexivity|].
  destruct (literals_ok (length raw) raw [] (le_n _)) as (A & B & C). split; [exact A|]. split; [exact B|exact C].
Qed.

Lemma chop_pixels : forall n k px, is_pixels n k px -> chop (Z.to_nat n) k (concat px) = px.
Proof.
  intros n k px [L F]. replace (Z.to_nat n) with (length px) by (unfold len in L; lia).
  pose proof (chop_concat px k []) as C. rewrite app_nil_r in C. apply C. revert F. apply Forall_impl. tauto.
Qed.

Lemma chop_rows_pixel : forall h w (px : list (list Z)) y x p, 0 <= y < h -> 0 <= x < w -> len px = w * h ->
  nth_error px (Z.to_nat (y * w + x)) = Some p -> pixel_at (chop (Z.to_nat h) (Z.to_nat w) px) y x p.
Proof.
  intros h w px y x p Hy Hx L E. exists (firstn (Z.to_nat w) (skipn (Z.to_nat y * Z.to_nat w) px)). split.
  - apply chop_nth. lia.
  - rewrite nth_error_firstn' by lia. rewrite nth_error_skipn'. rewrite <- E. f_equal.
    assert (0 <= y * w) by (apply Z.mul_nonneg_nonneg; lia).
    rewrite Z2Nat.inj_add by lia. rewrite Z2Nat.inj_mul by lia. reflexivity.
Qed.
