(** Proofs about still previews. *)
From Coq Require Import ZArith List Bool Lia.
From Verif Require Import Base BaseFacts SpriteModel SpecDecode SpecSprite SpriteProofs LibModel SpecLib LibProofs PropsLib PaletteData TreeModel SpecTree SpecLayers LayerProofs PreviewModel SpecPreview.
Import ListNotations.
Open Scope Z_scope.

Lemma zip3_at f a b c y x p q r : pixel_at a y x p -> pixel_at b y x q -> pixel_at c y x r -> pixel_at (zip3 f a b c) y x (f p q r).
Proof.
  intros (ra & Ra & P) (rb & Rb & Q) (rc & Rc & R). unfold zip3, pixel_at. eexists. split.
  - rewrite nth_error_map, (combine_nth a (combine b c) _ _ _ Ra (combine_nth _ _ _ _ _ Rb Rc)). reflexivity.
  - cbn [fst snd]. rewrite nth_error_map, (combine_nth _ _ _ _ _ P (combine_nth _ _ _ _ _ Q R)). reflexivity.
Qed.

Lemma nth_error_repeat {A} (a : A) n i : (i < n)%nat -> nth_error (repeat a n) i = Some a.
Proof. revert i. induction n as [|n IH]; intros [|i] H; cbn; try lia; [reflexivity|apply IH; lia]. Qed.
Lemma zeros_at h w y x : 0 <= y < h -> 0 <= x < w -> pixel_at (zeros h w) y x [0; 0; 0; 0].
Proof.
  intros Y X. exists (repeat [0; 0; 0; 0] (Z.to_nat w)). split; [apply nth_error_repeat; lia|apply nth_error_repeat; lia].
Qed.

Lemma palette_ok m : colour_ok (palette_entry m).
Proof.
  unfold palette_entry. assert (F : Forall colour_ok PALETTE).
  { apply Forall_forall. intros [[r g] b] I.
    assert (B : forallb (fun c => let '(r, g, b) := c in (0 <=? r) && (r <=? 255) && (0 <=? g) && (g <=? 255) && (0 <=? b) && (b <=? 255)) PALETTE = true) by reflexivity.
    pose proof (proj1 (forallb_forall _ _) B _ I) as C. cbn beta iota in C. unfold colour_ok. lia. }
  destruct (Nat.lt_ge_cases (Z.to_nat m) (length PALETTE)) as [L|G].
  - exact (proj1 (Forall_forall _ _) F _ (nth_In _ _ L)).
  - rewrite nth_overflow by exact G. cbn. lia.
Qed.

Lemma brightened_eq c k : colour_ok c -> 0 <= k <= 255 -> of_colour (adjust_brightness c k) = brightened c k.
Proof.
  destruct c as [[r g] b]. intros C K. unfold brightened. cbn [map].
  destruct (Z.leb_spec (Z.max (scaled r k) (Z.max (scaled g k) (scaled b k))) 255) as [L|G].
  - rewrite C40_exact by (try assumption; lia). reflexivity.
  - rewrite C40_overbright by (try assumption; lia). reflexivity.
Qed.
Lemma brightened_len c k : length (brightened c k) = 3%nat.
Proof. destruct c as [[r g] b]. reflexivity. Qed.

Lemma len3 (c : list Z) : length c = 3%nat -> exists r g b, c = [r; g; b].
Proof. destruct c as [|r [|g [|b [|]]]]; try discriminate. eauto. Qed.
Lemma len1 (c : list Z) : length c = 1%nat -> exists a, c = [a].
Proof. destruct c as [|r [|]]; try discriminate. eauto. Qed.

Lemma layer_pixel h w k l y x : shape_ok h w k l = true -> 0 <= y < h -> 0 <= x < w ->
  exists p, layer_at l y x p /\ match p with Some p => length p = k | None => True end.
Proof.
  destruct l as [l|]; cbn [shape_ok]; intros S Y X.
  - destruct (shape_pixel _ _ _ _ _ _ S Y X) as (p & P & L). exists (Some p). split; assumption.
  - exists None. split; [exact I|exact I].
Qed.
Lemma layer_pixel_len h w k l y x p : shape_ok h w k l = true -> layer_at l y x (Some p) -> length p = k.
Proof. destruct l as [l|]; cbn [shape_ok layer_at]; intros S H; [exact (shape_pixel_len _ _ _ _ _ _ _ S H)|destruct H]. Qed.

Lemma make_rgba_at d img y x v : make_rgba d = Some img -> 0 <= y < l_h d -> 0 <= x < l_w d ->
  pixel_of (pic_of d) y x v -> pixel_bytes v -> pixel_at img y x (shown v).
Proof.
  unfold make_rgba. intros E Y X (Vr & Va & Vm) (Br & Ba & Bm). destruct v as [vr va vm]. cbn [pic_of p_rgb p_alpha p_mask x_rgb x_alpha x_mask] in *.
  destruct (shape_ok (l_h d) (l_w d) 3 (l_rgb d) && shape_ok (l_h d) (l_w d) 1 (l_alpha d) && shape_ok (l_h d) (l_w d) 1 (l_mask d)) eqn:S; [|discriminate E].
  apply andb_prop in S as [S Sm]. apply andb_prop in S as [Sr Sa].
  cbv zeta in E.
  set (img0 := match l_alpha d with Some a => zip_layers set_alpha a (zeros (l_h d) (l_w d)) | None => zeros (l_h d) (l_w d) end) in *.
  pose proof (zeros_at (l_h d) (l_w d) y x Y X) as Z0.
  assert (I0 : pixel_at img0 y x ([0; 0; 0] ++ match va with Some a => a | None => [0] end)).
  { unfold img0. destruct (l_alpha d) as [la|], va as [a|]; cbn [layer_at] in Va; try contradiction; [|exact Z0].
    exact (zip_layers_at set_alpha la _ y x a _ Va Z0). }
  assert (LA : forall a, va = Some a -> length a = 1%nat) by (intros a ->; exact (layer_pixel_len _ _ _ _ _ _ _ Sa Va)).
  assert (OP : forall im r g b, pixel_at im y x ([r; g; b] ++ match va with Some a => a | None => [0] end) ->
     pixel_at (match l_alpha d with Some _ => im | None => map_px (set_alpha [255]) im end) y x
       ([r; g; b] ++ match va with Some a => a | None => [255] end)).
  { intros im r g b H. destruct (l_alpha d) as [la|], va as [a|]; cbn [layer_at] in Va; try contradiction; [exact H|].
    exact (map_px_at (set_alpha [255]) im y x _ H). }
  clearbody img0. unfold shown. cbn [x_rgb x_alpha x_mask].
  destruct (l_mask d) as [lm|], vm as [m|]; cbn [layer_at] in Vm; try contradiction;
    (destruct (l_rgb d) as [lr|], vr as [c|]; cbn [layer_at] in Vr; try contradiction); try discriminate E.
  - destruct (existsb (existsb masked) lm); [|discriminate E]. apply some_inj in E. subst img.
    destruct (len3 c (layer_pixel_len _ _ _ (Some lr) _ _ _ Sr Vr)) as (r & g & b & ->).
    destruct (len1 m (layer_pixel_len _ _ _ (Some lm) _ _ _ Sm Vm)) as (q & ->).
    cbn [nth] in *. inversion Bm as [|? ? Q _]; subst. inversion Br as [|? ? R1 Br1]; subst. inversion Br1 as [|? ? R2 Br2]; subst.
    inversion Br2 as [|? ? R3 _]; subst.
    set (f1 := fun m c p : list Z => if masked m then p else set_rgb c p).
    set (f2 := fun m c p : list Z => if masked m then set_rgb (of_colour (adjust_brightness (nth (Z.to_nat (nth 0 m 0)) PALETTE (0, 0, 0)) (py_max c))) p else p).
    pose proof (zip3_at f1 _ _ _ _ _ _ _ _ Vm Vr I0) as H1. pose proof (zip3_at f2 _ _ _ _ _ _ _ _ Vm Vr H1) as H2.
    unfold f1, f2, masked in H2. cbn [nth] in H2. fold (palette_entry q) in H2. rewrite (brightened_eq _ _ (palette_ok q)) in H2 by (cbn; lia).
    change (py_max [r; g; b]) with (Z.max (Z.max r g) b) in H2. rewrite <- Z.max_assoc in H2.
    destruct (Z.eqb_spec q 0) as [->|NZ].
    + change (0 <? 0) with false in H2. cbv iota in H2. apply OP. exact H2.
    + replace (0 <? q) with true in H2 by (symmetry; apply Z.ltb_lt; lia). cbv iota in H2.
      destruct (len3 _ (brightened_len (palette_entry q) (Z.max r (Z.max g b)))) as (r' & g' & b' & EB). rewrite EB in *. apply OP. exact H2.
  - apply some_inj in E. subst img. destruct (len1 m (layer_pixel_len _ _ _ (Some lm) _ _ _ Sm Vm)) as (q & ->).
    set (f := fun m p : list Z => if masked m then set_alpha [255] (set_rgb (of_colour (nth (Z.to_nat (nth 0 m 0)) PALETTE (0, 0, 0))) p) else p).
    pose proof (zip_layers_at f _ _ _ _ _ _ Vm I0) as H. unfold f, masked in H. cbn [nth] in *. fold (palette_entry q) in H.
    inversion Bm as [|? ? Q _]; subst. destruct (Z.eqb_spec q 0) as [->|NZ]; [exact H|].
    replace (0 <? q) with true in H by (symmetry; apply Z.ltb_lt; lia).
    destruct (palette_entry q) as [[r g] b]. exact H.
  - apply some_inj in E. subst img. destruct (len3 c (layer_pixel_len _ _ _ (Some lr) _ _ _ Sr Vr)) as (r & g & b & ->).
    apply OP. exact (zip_layers_at set_rgb _ _ _ _ _ _ Vr I0).
Qed.

(** the size of the picture *)
Lemma shape_dims h w k l : has_shape h w k l = true -> dims h w l.
Proof. intros S. apply has_shape_inv in S as [L F]. split; [exact L|]. revert F. apply Forall_impl. tauto. Qed.
Lemma dims_zip f h w a b : dims h w a -> dims h w b -> dims h w (zip_layers f a b).
Proof.
  intros [La Fa] [Lb Fb]. unfold zip_layers, dims, len in *. rewrite map_length, combine_length. split; [lia|].
  apply Forall_forall. intros row I. apply in_map_iff in I as ([ra rb] & <- & I). cbn [fst snd]. rewrite map_length, combine_length.
  rewrite Forall_forall in Fa, Fb. pose proof (Fa ra (in_combine_l _ _ _ _ I)). pose proof (Fb rb (in_combine_r _ _ _ _ I)). lia.
Qed.
Lemma dims_zip3 f h w a b c : dims h w a -> dims h w b -> dims h w c -> dims h w (zip3 f a b c).
Proof.
  intros [La Fa] [Lb Fb] [Lc Fc]. unfold zip3, dims, len in *. rewrite map_length, !combine_length. split; [lia|].
  apply Forall_forall. intros row I. apply in_map_iff in I as ([ra [rb rc]] & <- & I). cbn [fst snd]. rewrite map_length, !combine_length.
  pose proof (in_combine_l _ _ _ _ I) as I1. pose proof (in_combine_r _ _ _ _ I) as I2.
  rewrite Forall_forall in Fa, Fb, Fc. pose proof (Fa ra I1). pose proof (Fb rb (in_combine_l _ _ _ _ I2)). pose proof (Fc rc (in_combine_r _ _ _ _ I2)). lia.
Qed.
Lemma dims_map f h w a : dims h w a -> dims h w (map_px f a).
Proof.
  intros [La Fa]. unfold map_px, dims, len in *. rewrite map_length. split; [exact La|].
  apply Forall_forall. intros row I. apply in_map_iff in I as (r & <- & I). rewrite map_length. rewrite Forall_forall in Fa. exact (Fa r I).
Qed.
Lemma dims_zeros h w a : dims h w a -> a <> [] -> dims h w (zeros h w).
Proof.
  intros [La Fa] N. unfold dims, zeros, len in *. rewrite repeat_length. split; [lia|]. apply Forall_forall. intros r I.
  apply repeat_spec in I. subst r. rewrite repeat_length. destruct a as [|r a]; [congruence|]. inversion Fa; subst. lia.
Qed.
Lemma dims_zeros0 w : dims 0 w (zeros 0 w).
Proof. split; [reflexivity|constructor]. Qed.
Lemma dims_zeros_any h w a : dims h w a -> dims h w (zeros h w).
Proof.
  intros D. destruct a as [|r a]; [|exact (dims_zeros h w _ D ltac:(discriminate))].
  destruct D as [L _]. cbn in L. subst h. apply dims_zeros0.
Qed.

Lemma make_rgba_dims d img : make_rgba d = Some img -> dims (l_h d) (l_w d) img.
Proof.
  unfold make_rgba. intros E.
  destruct (shape_ok (l_h d) (l_w d) 3 (l_rgb d) && shape_ok (l_h d) (l_w d) 1 (l_alpha d) && shape_ok (l_h d) (l_w d) 1 (l_mask d)) eqn:S; [|discriminate E].
  apply andb_prop in S as [S Sm]. apply andb_prop in S as [Sr Sa]. cbv zeta in E.
  set (img0 := match l_alpha d with Some a => zip_layers set_alpha a (zeros (l_h d) (l_w d)) | None => zeros (l_h d) (l_w d) end) in *.
  assert (D0 : dims (l_h d) (l_w d) (zeros (l_h d) (l_w d)) -> dims (l_h d) (l_w d) img0).
  { intros Z0. unfold img0. destruct (l_alpha d) as [a|]; [|exact Z0]. apply dims_zip; [exact (shape_dims _ _ _ _ Sa)|exact Z0]. }
  clearbody img0.
  assert (OP : forall im, dims (l_h d) (l_w d) im -> dims (l_h d) (l_w d) (match l_alpha d with Some _ => im | None => map_px (set_alpha [255]) im end)).
  { intros im D. destruct (l_alpha d); [exact D|apply dims_map; exact D]. }
  destruct (l_mask d) as [lm|], (l_rgb d) as [lr|]; try discriminate E; cbn [shape_ok] in *.
  - destruct (existsb (existsb masked) lm); [|discriminate E]. apply some_inj in E. subst img.
    pose proof (shape_dims _ _ _ _ Sr) as Dr. pose proof (shape_dims _ _ _ _ Sm) as Dm. specialize (D0 (dims_zeros_any _ _ _ Dr)).
    apply OP. apply dims_zip3; [exact Dm|exact Dr|]. apply dims_zip3; assumption.
  - apply some_inj in E. subst img. pose proof (shape_dims _ _ _ _ Sm) as Dm. apply dims_zip; [exact Dm|]. exact (D0 (dims_zeros_any _ _ _ Dm)).
  - apply some_inj in E. subst img. pose proof (shape_dims _ _ _ _ Sr) as Dr. apply OP. apply dims_zip; [exact Dr|]. exact (D0 (dims_zeros_any _ _ _ Dr)).
Qed.

(** when there is a picture *)
Lemma make_rgba_iff d : shape_ok (l_h d) (l_w d) 3 (l_rgb d) = true -> shape_ok (l_h d) (l_w d) 1 (l_alpha d) = true ->
  shape_ok (l_h d) (l_w d) 1 (l_mask d) = true ->
  ((exists img, make_rgba d = Some img) <->
   match l_rgb d, l_mask d with
   | None, None => False
   | Some _, Some m => existsb (existsb masked) m = true
   | _, _ => True end).
Proof.
  intros Sr Sa Sm. unfold make_rgba. rewrite Sr, Sa, Sm. cbn [andb]. cbv zeta.
  destruct (l_mask d) as [lm|], (l_rgb d) as [lr|]; [destruct (existsb (existsb masked) lm)| | |];
    split; try (intros _; eexists; reflexivity); try (intros (i & E); discriminate E); try discriminate; try reflexivity; try (intros _; exact I); try contradiction.
Qed.
