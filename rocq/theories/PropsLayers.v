(** Properties C60 (what composed sprites show) and C61 (palettes). *)
From Coq Require Import ZArith List Bool Lia.
From Verif Require Import Base BaseFacts SpriteModel SpecDecode SpecSprite SpriteProofs RealProofs CacheModel JsonModel PaletteData TreeModel TreeProofs
  SpecTree SpecLayers LayerProofs PaletteProofs.
Import ListNotations.
Open Scope Z_scope.

(** C60: WithMask(sprite, mask) has the size of both and shows the mask's
    palette index over the sprite, pixel by pixel. *)
Theorem C60_mask : forall lib W s m mode t d, new_mask s m mode = Some t -> get_layers lib W t = Some d ->
  exists ds dm, get_layers lib W s = Some ds /\ get_layers lib W m = Some dm
    /\ l_w d = l_w ds /\ l_h d = l_h ds /\ l_w dm = l_w ds /\ l_h dm = l_h ds
    /\ forall y x, 0 <= y < l_h d -> 0 <= x < l_w d -> exists q v,
         pixel_of (pic dm) y x (mk_pixel None None (Some [q])) /\ pixel_of (pic ds) y x v
         /\ pixel_of (pic d) y x (put_mask (mode =? 1) q v).
Proof.
  intros lib W s m mode t d N E. unfold new_mask in N. match type of N with (if ?c then _ else _) = _ => destruct c; [|discriminate] end.
  apply some_inj in N. subst t. cbn [get_layers] in E.
  destruct (get_layers lib W s) as [ds|]; [cbn [bind] in E|discriminate]. destruct (get_layers lib W m) as [dm|]; [cbn [bind] in E|discriminate].
  exists ds, dm. pose proof (mask_layers_size _ _ _ _ E) as (E1 & E2 & E3 & E4 & R & A & mm & M & S & S1 & S2 & S3).
  repeat split; try assumption. intros y x Y X. rewrite E1 in X. rewrite E2 in Y.
  destruct (shape_pixel _ _ _ _ y x S Y X) as (p & P & Lp). destruct p as [|q [|]]; try discriminate Lp.
  assert (V : exists v, pixel_of (pic ds) y x v).
  { unfold pixel_of. cbn [pic p_rgb p_alpha p_mask].
    assert (Q : forall k l, shape_ok (l_h ds) (l_w ds) k l = true -> exists p, layer_at l y x p).
    { intros k [l|] H; [|exists None; exact I]. destruct (shape_pixel _ _ _ _ y x H Y X) as (u & U & _). exists (Some u). exact U. }
    destruct (Q 3%nat _ S1) as [r Hr]. destruct (Q 1%nat _ S2) as [a Ha]. destruct (Q 1%nat _ S3) as [k Hk]. exists (mk_pixel r a k). auto. }
  destruct V as [v V].
  assert (PM : pixel_of (pic dm) y x (mk_pixel None None (Some [q]))).
  { unfold pixel_of. cbn [pic p_rgb p_alpha p_mask x_rgb x_alpha x_mask]. rewrite R, A, M. cbn [layer_at]. auto. }
  exists q, v. split; [exact PM|]. split; [exact V|]. exact (mask_layers_at mode ds dm d q v y x E V PM).
Qed.

(** Sprites and masks of one size compose. *)
Theorem C60_mask_total : forall lib W s m mode t ds dm h w, new_mask s m mode = Some t ->
  get_layers lib W s = Some ds -> get_layers lib W m = Some dm ->
  l_w ds = w -> l_h ds = h -> l_w dm = w -> l_h dm = h -> is_picture h w (pic ds) -> is_picture h w (pic dm) ->
  l_rgb dm = None -> l_alpha dm = None -> l_mask dm <> None -> exists d, get_layers lib W t = Some d.
Proof.
  intros lib W s m mode t ds dm h w N Es Em W1 H1 W2 H2 P1 P2 R A M. unfold new_mask in N. match type of N with (if ?c then _ else _) = _ => destruct c; [|discriminate] end.
  apply some_inj in N. subst t. cbn [get_layers]. rewrite Es, Em. cbn [bind]. unfold mask_layers. rewrite W1, H1, W2, H2, !Z.eqb_refl, R, A. cbn [andb].
  destruct (l_mask dm) as [mm|] eqn:Mm; [cbn [bind]|congruence].
  destruct P1 as (Q1 & Q2 & Q3). destruct P2 as (_ & _ & Q4). cbn [pic p_rgb p_alpha p_mask] in *.
  assert (S : forall k o, (forall l, o = Some l -> is_layer h w k l) -> shape_ok h w k o = true).
  { intros k [l|] H; [|reflexivity]. cbn. now apply has_shape_ok, H. }
  rewrite (S 3%nat _ Q1), (S 1%nat _ Q2), (S 1%nat _ Q3), (has_shape_ok _ _ _ _ (Q4 mm Mm)). cbn [andb]. destruct (mode =? 1); eexists; reflexivity.
Qed.

(** A mask of another size, or with colours of its own, is refused. *)
Theorem C60_mask_refused : forall lib W s m mode t ds dm, new_mask s m mode = Some t ->
  get_layers lib W s = Some ds -> get_layers lib W m = Some dm ->
  (l_w ds <> l_w dm \/ l_h ds <> l_h dm \/ l_rgb dm <> None \/ l_alpha dm <> None) -> get_layers lib W t = None.
Proof.
  intros lib W s m mode t ds dm N Es Em H. destruct (get_layers lib W t) as [d|] eqn:E; [exfalso|reflexivity].
  unfold new_mask in N. match type of N with (if ?c then _ else _) = _ => destruct c; [|discriminate] end.
  apply some_inj in N. subst t. cbn [get_layers] in E. rewrite Es, Em in E. cbn [bind] in E.
  pose proof (mask_layers_size _ _ _ _ E) as (_ & _ & E3 & E4 & R & A & _). destruct H as [H | [H | [H | H]]]; congruence.
Qed.

(** FileSprite without conversion shows the rectangle of its file: pixel
    (x, y) of the sprite is pixel (x0 + x, y0 + y) of the image, with the key
    colour made transparent. *)
Theorem C60_file : forall lib W a path ck x0 y0 d m data full w h k,
  W path = Some (m, data) -> pil_open lib data = Some full ->
  In (i_bpp full, k) [(8, 1%nat); (24, 3%nat); (32, 4%nat)] -> is_layer (i_h full) (i_w full) k (i_px full) ->
  (a_bpp a = None \/ a_bpp a = Some (i_bpp full)) -> (i_bpp full = 8 -> i_pal full = PIL_PALETTE) ->
  a_w a = Some w -> a_h a = Some h -> get_layers lib W (TFile a path ck x0 y0 []) = Some d ->
  l_w d = w /\ l_h d = h /\ forall y x, 0 <= y < h -> 0 <= x < w -> exists p v,
    pixel_at (i_px full) (y0 + y) (x0 + x) p /\ pixel_of (pic d) y x v
    /\ let v0 := split_pixel (i_bpp full) p in
       x_rgb v = x_rgb v0 /\ x_mask v = x_mask v0
       /\ match ck with
          | None => v = v0
          | Some (r, g, b) => (x_rgb v0 = Some [r; g; b] -> opacity v = [0]) /\ (x_rgb v0 <> Some [r; g; b] -> opacity v = opacity v0)
          end.
Proof.
  intros lib W a path ck x0 y0 d m data full w h k Wp O K L B8 PP Aw Ah E. cbn [get_layers] in E.
  destruct (file_image lib W a path x0 y0 []) as [im|] eqn:FI; [cbn [bind] in E|discriminate].
  apply file_image_inv in FI as (_ & m' & data' & full' & w' & h' & Wp' & O' & SZ & X0 & Y0 & Wn & Hn & XB & YB & ->).
  rewrite Wp in Wp'. apply some_inj in Wp'. apply pair_inj in Wp' as [<- <-]. rewrite O in O'. apply some_inj in O'. subst full'.
  rewrite Aw, Ah in SZ. destruct SZ as [-> ->].
  set (im := mk_image (i_bpp full) w h (i_pal full) (cut x0 y0 w h (i_px full))) in *.
  assert (CV : convert lib (a_bpp a) im = Some im).
  { unfold convert. change (i_bpp im) with (i_bpp full).
    assert (FP : (if i_bpp full =? 8 then fix_palette lib im else Some im) = Some im).
    { destruct (Z.eqb_spec (i_bpp full) 8) as [E8|]; [|reflexivity]. unfold fix_palette. change (i_bpp im) with (i_bpp full). rewrite E8. cbn [Z.eqb Pos.eqb].
      change (i_pal im) with (i_pal full). rewrite (PP E8), zlist_eqb_refl. reflexivity. }
    destruct B8 as [-> | ->]; [exact FP|]. rewrite Z.eqb_refl. exact FP. }
  unfold image_layers in E. rewrite CV in E. cbn [bind or_else] in E.
  assert (BP : or_else (a_bpp a) (i_bpp im) = i_bpp full) by (destruct B8 as [-> | ->]; reflexivity). rewrite BP in E.
  change (i_w im) with w in E. change (i_h im) with h in E.
  assert (SP : exists d0, key_layers ck d0 = Some d /\ l_w d0 = w /\ l_h d0 = h /\
     forall y x p, pixel_at (i_px im) y x p -> pixel_of (pic d0) y x (split_pixel (i_bpp full) p) \/ length p <> k).
  { destruct K as [K | [K | [K | []]]]; injection K as KB KK; rewrite <- KB in E |- *; cbn [Z.eqb Pos.eqb bind] in E; eexists; (split; [exact E|]); (split; [reflexivity|]); (split; [reflexivity|]);
      intros y x p P; unfold split_pixel; cbn [Z.eqb Pos.eqb]; unfold pixel_of; cbn [pic p_rgb p_alpha p_mask l_rgb l_alpha l_mask x_rgb x_alpha x_mask layer_at].
    - left. auto.
    - left. auto.
    - destruct (Nat.eq_dec (length p) 4) as [L4|]; [left|right; congruence]. split; [exact (map_px_at (firstn 3) _ y x p P)|]. split; [|exact I].
      destruct p as [|a0 [|a1 [|a2 [|a3 [|]]]]]; try discriminate L4. exact (map_px_at (fun p => [nth 3 p 0]) _ y x _ P). }
  destruct SP as (d0 & KL & W0 & H0 & PX). assert (l_w d = w /\ l_h d = h) as [Wd Hd].
  { unfold key_layers in KL. destruct ck as [[[kr kg] kb]|]; [|apply some_inj in KL; subst; auto]. destruct (l_rgb d0); [cbn [bind] in KL|discriminate].
    match type of KL with (if ?c then _ else _) = _ => destruct c; [|discriminate] end. match type of KL with (if ?c then _ else _) = _ => destruct c end; apply some_inj in KL; subst d; auto. }
  split; [exact Wd|]. split; [exact Hd|]. intros y x Y X.
  destruct (layer_pixel_exists (i_h full) (i_w full) k (i_px full) (y0 + y) (x0 + x) L ltac:(lia) ltac:(lia)) as (p & P & Lp & _).
  destruct (PX y x p) as [V | V]; [apply cut_at; assumption| |congruence].
  rewrite <- H0 in Y. rewrite <- W0 in X. destruct (key_layers_at ck d0 d _ y x KL Y X V) as (v' & V' & R1 & R2 & R3).
  exists p, v'. split; [exact P|]. split; [exact V'|]. split; [exact R1|]. split; [exact R2|].
  destruct ck as [[[kr kg] kb]|]; [|exact R3]. destruct R3 as [R3 R4]. split; [|exact R4]. intros Q. unfold opacity. now rewrite (R3 Q).
Qed.

(** A FileSprite asked for a colour depth its file does not have shows the
    image converted: RGB for 24, RGBA for 32, and the nearest colours of the
    game's palette (C61) for 8. *)
Theorem C60_converted : forall lib W a path x0 y0 im b d,
  get_image lib W (TFile a path None x0 y0 []) = Some im -> a_bpp a = Some b -> b <> i_bpp im ->
  get_layers lib W (TFile a path None x0 y0 []) = Some d ->
  In b [8; 24; 32] /\ exists im', (b = 24 -> im' = pil_rgb lib im) /\ (b = 32 -> im' = pil_rgba lib im) /\ (b = 8 -> quantize lib im = Some im')
    /\ forall y x p, pixel_at (i_px im') y x p -> (b = 32 -> length p = 4%nat) -> pixel_of (pic d) y x (split_pixel b p).
Proof.
  intros lib W a path x0 y0 im b d G A N E. cbn [get_image] in G. cbn [get_layers] in E. rewrite G in E. cbn [bind] in E.
  unfold image_layers in E. rewrite A in E. cbn [or_else] in E. unfold convert in E. rewrite (proj2 (Z.eqb_neq b (i_bpp im)) N) in E. cbn [negb] in E.
  destruct (Z.eqb_spec b 24) as [-> |N24]; [|destruct (Z.eqb_spec b 32) as [-> |N32]].
  - cbn [bind Z.eqb Pos.eqb key_layers] in E. apply some_inj in E. subst d. split; [cbn; auto|]. exists (pil_rgb lib im). split; [auto|]. split; [discriminate|]. split; [discriminate|].
    intros y x p P _. unfold split_pixel, pixel_of. cbn [Z.eqb Pos.eqb pic p_rgb p_alpha p_mask l_rgb l_alpha l_mask x_rgb x_alpha x_mask layer_at]. auto.
  - cbn [bind Z.eqb Pos.eqb key_layers] in E. apply some_inj in E. subst d. split; [cbn; auto|]. exists (pil_rgba lib im). split; [discriminate|]. split; [auto|]. split; [discriminate|].
    intros y x p P L. specialize (L eq_refl). unfold split_pixel, pixel_of. cbn [Z.eqb Pos.eqb pic p_rgb p_alpha p_mask l_rgb l_alpha l_mask x_rgb x_alpha x_mask layer_at].
    split; [exact (map_px_at (firstn 3) _ y x p P)|]. split; [|exact I].
    destruct p as [|a0 [|a1 [|a2 [|a3 [|]]]]]; try discriminate L. exact (map_px_at (fun p => [nth 3 p 0]) _ y x _ P).
  - destruct (quantize lib im) as [im'|] eqn:Q; [cbn [bind] in E|discriminate]. destruct (Z.eqb_spec b 8) as [-> |]; [cbn [bind key_layers] in E|cbn [bind] in E; discriminate].
    apply some_inj in E. subst d. split; [cbn; auto|]. exists im'. split; [discriminate|]. split; [discriminate|]. split; [auto|].
    intros y x p P _. unfold split_pixel, pixel_of. cbn [Z.eqb Pos.eqb pic p_rgb p_alpha p_mask l_rgb l_alpha l_mask x_rgb x_alpha x_mask layer_at]. auto.
Qed.

(** It is refused exactly when the rectangle is not inside the image. *)
Theorem C60_file_inside : forall lib W a path x0 y0 m data full w h,
  W path = Some (m, data) -> pil_open lib data = Some full -> a_w a = Some w -> a_h a = Some h ->
  (get_image lib W (TFile a path None x0 y0 []) <> None <-> 0 <= x0 /\ 0 <= y0 /\ 0 <= w /\ 0 <= h /\ x0 + w <= i_w full /\ y0 + h <= i_h full).
Proof.
  intros lib W a path x0 y0 m data full w h Wp O Aw Ah. cbn [get_image]. split.
  - intros H. destruct (file_image lib W a path x0 y0 []) as [im|] eqn:FI; [|congruence].
    apply file_image_inv in FI as (_ & m' & data' & full' & w' & h' & Wp' & O' & SZ & X0 & Y0 & Wn & Hn & XB & YB & ->).
    rewrite Wp in Wp'. apply some_inj in Wp'. apply pair_inj in Wp' as [<- <-]. rewrite O in O'. apply some_inj in O'. subst full'.
    rewrite Aw, Ah in SZ. destruct SZ as [-> ->]. auto 10.
  - intros (X0 & Y0 & Wn & Hn & XB & YB). unfold file_image. rewrite Wp. cbn [bind]. rewrite O, Aw, Ah. cbn [bind].
    replace (negb _) with true by (symmetry; apply negb_true_iff; lia). replace ((0 <=? w) && (0 <=? h)) with true by (symmetry; lia). discriminate.
Qed.

(** Without a size the sprite is the whole file (drawn from its corner). *)
Theorem C60_file_whole : forall lib W a path x0 y0 m data full,
  W path = Some (m, data) -> pil_open lib data = Some full -> a_w a = None -> 0 <= i_w full -> 0 <= i_h full ->
  (get_image lib W (TFile a path None x0 y0 []) <> None <-> x0 = 0 /\ y0 = 0)
  /\ forall im, get_image lib W (TFile a path None x0 y0 []) = Some im -> i_w im = i_w full /\ i_h im = i_h full.
Proof.
  intros lib W a path x0 y0 m data full Wp O Aw Wn Hn. cbn [get_image]. split; [split|].
  - intros H. destruct (file_image lib W a path x0 y0 []) as [im|] eqn:FI; [|congruence].
    apply file_image_inv in FI as (_ & m' & data' & full' & w' & h' & Wp' & O' & SZ & X0 & Y0 & Wn' & Hn' & XB & YB & ->).
    rewrite Wp in Wp'. apply some_inj in Wp'. apply pair_inj in Wp' as [<- <-]. rewrite O in O'. apply some_inj in O'. subst full'.
    rewrite Aw in SZ. destruct SZ as [-> ->]. lia.
  - intros [-> ->]. unfold file_image. rewrite Wp. cbn [bind]. rewrite O, Aw. cbn [bind].
    replace (negb _) with true by (symmetry; apply negb_true_iff; lia). replace ((0 <=? i_w full) && (0 <=? i_h full)) with true by (symmetry; lia). discriminate.
  - intros im FI. apply file_image_inv in FI as (_ & m' & data' & full' & w' & h' & Wp' & O' & SZ & X0 & Y0 & Wn' & Hn' & XB & YB & ->).
    rewrite Wp in Wp'. apply some_inj in Wp'. apply pair_inj in Wp' as [<- <-]. rewrite O in O'. apply some_inj in O'. subst full'.
    rewrite Aw in SZ. destruct SZ as [-> ->]. auto.
Qed.

(** A width given without a height is ignored: 'w is None or h is None and
    x == 0 and y == 0' replaces both. *)
Theorem C60_width_refuted : forall lib W a path m data full w,
  W path = Some (m, data) -> pil_open lib data = Some full -> a_w a = Some w -> a_h a = None -> 0 <= i_w full -> 0 <= i_h full ->
  exists im, get_image lib W (TFile a path None 0 0 []) = Some im /\ i_w im = i_w full.
Proof.
  intros lib W a path m data full w Wp O Aw Ah Wn Hn. cbn [get_image]. unfold file_image. rewrite Wp. cbn [bind]. rewrite O, Aw, Ah. cbn [bind Z.eqb andb].
  replace (negb _) with true by (symmetry; apply negb_true_iff; lia). replace ((0 <=? i_w full) && (0 <=? i_h full)) with true by (symmetry; lia).
  eexists. split; reflexivity.
Qed.

(** A colour key on a palette image raises. *)
Theorem C60_key_8bpp_refuted : forall lib W a path key x0 y0 d, a_bpp a = None ->
  (forall m data im, W path = Some (m, data) -> pil_open lib data = Some im -> i_bpp im = 8) ->
  get_layers lib W (TFile a path (Some key) x0 y0 []) = Some d -> False.
Proof.
  intros lib W a path key x0 y0 d B P8 E. cbn [get_layers] in E. destruct (file_image lib W a path x0 y0 []) as [im|] eqn:FI; [cbn [bind] in E|discriminate].
  apply file_image_inv in FI as (_ & m' & data' & full & w & h & Wp & O & SZ & _ & _ & _ & _ & _ & _ & ->). specialize (P8 _ _ _ Wp O).
  unfold image_layers in E. rewrite B in E. cbn [or_else i_bpp] in E. rewrite P8 in E.
  destruct (convert _ _ _); [cbn [bind Z.eqb Pos.eqb] in E|discriminate]. unfold key_layers in E. destruct key as [[kr kg] kb]. discriminate E.
Qed.

(** MoveSprite(s, dx, dy): the same picture dx, dy further; moving twice adds
    up. *)
Theorem C60_move : forall lib compress W s dx dy, s <> TEmpty ->
  forall b b', real_data lib compress W s = Some b -> real_data lib compress W (new_move s dx dy) = Some b' ->
  exists xofs yofs head tail x y x' y', b = head ++ x ++ y ++ tail /\ b' = head ++ x' ++ y' ++ tail
    /\ length head = 6%nat /\ pack_h xofs = Some x /\ pack_h yofs = Some y /\ pack_h (xofs + dx) = Some x' /\ pack_h (yofs + dy) = Some y'.
Proof.
  intros lib compress W s dx dy NE b b' E E'.
  assert (R : (do d <- get_layers lib W s; get_real_data compress (mk_sprite (a_xofs (attrs_of s)) (a_yofs (attrs_of s)) (a_zoom (attrs_of s)) (a_crop (attrs_of s))) d) = Some b)
    by (unfold real_data in E; destruct s; try exact E; congruence). clear E.
  unfold real_data, new_move in E'. cbn [get_layers attrs_of a_xofs a_yofs a_zoom a_crop] in E'. destruct (get_layers lib W s) as [d|]; [cbn [bind] in R, E'|discriminate].
  unfold get_real_data in R, E'. cbn [s_crop s_zoom s_xofs s_yofs] in *.
  destruct (shape_ok (l_h d) (l_w d) 3 (l_rgb d)); [|discriminate]. destruct (shape_ok (l_h d) (l_w d) 1 (l_alpha d)); [|discriminate]. destruct (shape_ok (l_h d) (l_w d) 1 (l_mask d)); [|discriminate].
  destruct (do_crop _ d) as [[[cx cy] c]|]; [cbn [bind] in R, E'|discriminate]. destruct (info_raw c) as [[info raw]|]; [cbn [bind] in R, E'|discriminate].
  cbn [concat_opt bind] in R, E'.
  destruct (pack_B info) as [b1|] eqn:P1; [cbn [bind] in R, E'|discriminate]. destruct (pack_B (a_zoom (attrs_of s))) as [b2|] eqn:P2; [cbn [bind] in R, E'|discriminate].
  destruct (pack_H (l_h c)) as [b3|] eqn:P3; [cbn [bind] in R, E'|discriminate]. destruct (pack_H (l_w c)) as [b4|] eqn:P4; [cbn [bind] in R, E'|discriminate].
  destruct (pack_h (a_xofs (attrs_of s) + cx)) as [b5|] eqn:P5; [cbn [bind] in R|discriminate]. destruct (pack_h (a_yofs (attrs_of s) + cy)) as [b6|] eqn:P6; [cbn [bind] in R|discriminate].
  destruct (pack_h (a_xofs (attrs_of s) + dx + cx)) as [c5|] eqn:Q5; [cbn [bind] in E'|discriminate]. destruct (pack_h (a_yofs (attrs_of s) + dy + cy)) as [c6|] eqn:Q6; [cbn [bind] in E'|discriminate].
  apply some_inj in R, E'. exists (a_xofs (attrs_of s) + cx), (a_yofs (attrs_of s) + cy), (b1 ++ b2 ++ b3 ++ b4), (compress raw), b5, b6, c5, c6.
  split; [rewrite <- R, <- !app_assoc; reflexivity|]. split; [rewrite <- E', <- !app_assoc; reflexivity|].
  assert (LB : forall v l, pack_B v = Some l -> length l = 1%nat) by (intros v l; unfold pack_B; destruct (_ && _); [intros H; apply some_inj in H; now subst|discriminate]).
  assert (LH : forall v l, pack_H v = Some l -> length l = 2%nat) by (intros v l; unfold pack_H; destruct (_ && _); [intros H; apply some_inj in H; now subst|discriminate]).
  split; [rewrite !app_length, (LB _ _ P1), (LB _ _ P2), (LH _ _ P3), (LH _ _ P4); reflexivity|].
  split; [exact P5|]. split; [exact P6|]. split; [replace (a_xofs (attrs_of s) + cx + dx) with (a_xofs (attrs_of s) + dx + cx) by lia; exact Q5|replace (a_yofs (attrs_of s) + cy + dy) with (a_yofs (attrs_of s) + dy + cy) by lia; exact Q6].
Qed.
Theorem C60_move_twice : forall lib compress W s dx dy ex ey,
  real_data lib compress W (new_move (new_move s dx dy) ex ey) = real_data lib compress W (new_move s (dx + ex) (dy + ey)).
Proof. intros. unfold real_data, new_move. cbn [get_layers attrs_of a_xofs a_yofs a_zoom a_crop]. now rewrite !Z.add_assoc. Qed.

(** QuantizeSprite: a palette picture of the size of the sprite, made by
    C61_quantize of its image; images that have a palette are refused. *)
Theorem C60_quantize : forall lib W s d, get_layers lib W (new_quant s) = Some d ->
  exists im im', get_image lib W s = Some im /\ i_bpp im <> 8 /\ quantize lib im = Some im'
    /\ p_rgb (pic d) = None /\ p_alpha (pic d) = None /\ p_mask (pic d) = Some (i_px im')
    /\ (forall w, a_w (attrs_of s) = Some w -> l_w d = w) /\ (forall h, a_h (attrs_of s) = Some h -> l_h d = h)
    /\ (a_w (attrs_of s) = None -> l_w d = i_w im) /\ (a_h (attrs_of s) = None -> l_h d = i_h im).
Proof.
  intros lib W s d E. cbn [new_quant get_layers get_image a_w a_h a_bpp] in E.
  destruct (get_image lib W s) as [im|]; [cbn [bind] in E|discriminate]. destruct (Z.eqb_spec (i_bpp im) 8) as [|N]; [discriminate|]. cbn [negb] in E.
  destruct (quantize lib im) as [im'|] eqn:Q; [cbn [bind] in E|discriminate]. exists im, im'. split; [reflexivity|]. split; [exact N|]. split; [exact Q|].
  assert (B : i_bpp im' = 8 /\ i_pal im' = PIL_PALETTE /\ i_w im' = i_w im /\ i_h im' = i_h im).
  { unfold quantize in Q. destruct (remap_px _ _); [cbn [bind] in Q|discriminate]. apply some_inj in Q. now subst im'. }
  destruct B as (B & P & Wi & Hi). unfold image_layers, convert, fix_palette in E. rewrite B, P in E. cbn [Z.eqb Pos.eqb negb] in E.
  replace (zlist_eqb PIL_PALETTE PIL_PALETTE) with true in E by (symmetry; now apply zlist_eqb_eq). cbn [bind or_else Z.eqb Pos.eqb] in E.
  apply some_inj in E. subst d. cbn [pic p_rgb p_alpha p_mask l_rgb l_alpha l_mask l_w l_h].
  repeat (split; [reflexivity|]). rewrite Wi, Hi. split; [|split; [|split]].
  - intros w ->. reflexivity.
  - intros h ->. reflexivity.
  - intros ->. reflexivity.
  - intros ->. reflexivity.
Qed.
(** It can always be used as a mask, and no sprite known to have another
    depth can. *)
Theorem C60_mask_depth : forall s m mode,
  (exists t, new_mask s (new_quant m) mode = Some t) /\
  ((exists t, new_mask s m mode = Some t) <-> a_bpp (attrs_of m) = None \/ a_bpp (attrs_of m) = Some 8).
Proof.
  intros s m mode. split; [eexists; reflexivity|]. unfold new_mask. destruct (a_bpp (attrs_of m)) as [b|].
  - destruct (Z.eqb_spec b 8) as [-> | N]; split; intros H; eauto; [destruct H; discriminate|]. destruct H as [H | H]; congruence.
  - split; intros _; eauto.
Qed.
(** Masked and quantised sprites stand where the sprite stood, at its zoom
    level; they are cropped only when all their parts may be. *)
Theorem C60_place : forall lib compress W s t, s <> TEmpty -> t = new_quant s \/ (exists m mode, new_mask s m mode = Some t) ->
  real_data lib compress W t =
    do d <- get_layers lib W t;
    get_real_data compress (mk_sprite (a_xofs (attrs_of s)) (a_yofs (attrs_of s)) (a_zoom (attrs_of s)) (a_crop (attrs_of t))) d.
Proof.
  intros lib compress W s t NE [-> | (m & mode & E)]; [reflexivity|]. unfold new_mask in E.
  match type of E with (if ?c then _ else _) = _ => destruct c; [|discriminate] end. apply some_inj in E. now subst t.
Qed.
Theorem C60_crop : forall s m mode t, new_mask s m mode = Some t ->
  a_crop (attrs_of t) = (a_crop (attrs_of s) && a_crop (attrs_of m))%bool /\ a_crop (attrs_of (new_quant s)) = a_crop (attrs_of s).
Proof.
  intros s m mode t E. unfold new_mask in E. match type of E with (if ?c then _ else _) = _ => destruct c; [|discriminate] end. apply some_inj in E. now subst t.
Qed.

(** C61: converting a palette image to the game's palette keeps every colour
    the game has. *)
Theorem C61_exact : forall lib im im' y x i c, fix_palette lib im = Some im' ->
  pixel_at (i_px im) y x [i] -> 0 <= i -> nth_error (triples (i_pal im)) (Z.to_nat i) = Some c -> In c PALETTE ->
  exists j, pixel_at (i_px im') y x [j] /\ nth_error PALETTE (Z.to_nat j) = Some c.
Proof.
  intros lib im im' y x i c E P I C IP. unfold fix_palette in E. destruct (i_bpp im =? 8); [|discriminate].
  destruct (zlist_eqb (i_pal im) PIL_PALETTE) eqn:Z.
  - apply some_inj in E. subst im'. apply zlist_eqb_eq in Z. rewrite Z in C. exists i. auto.
  - destruct (fill_remap lib 0 (triples (i_pal im)) identity_remap) as [t|] eqn:F; [cbn [bind] in E|discriminate].
    unfold remap_image in E. destruct (i_bpp im =? 8); [|discriminate]. destruct (remap_px t (i_px im)) as [px|] eqn:RP; [cbn [bind] in E|discriminate]. apply some_inj in E. subst im'.
    destruct (remap_px_at _ _ _ _ _ _ RP P) as [B R]. destruct (fill_remap_spec lib _ 0 _ _ ltac:(lia) F) as (_ & _ & N & _).
    destruct (N _ _ C) as [N1 _]. cbn [Z.to_nat Nat.add] in N1. rewrite N1 in R. exists (resolved lib c). split; [exact R|]. unfold resolved in *.
    destruct (lookup_colour c) as [k|] eqn:LK; [now apply lookup_some in LK|]. exfalso. now apply (lookup_none c).
Qed.
(** Other colours become the one the colour search finds; nothing moves. *)
Theorem C61_near : forall lib im im' y x i c, fix_palette lib im = Some im' ->
  pixel_at (i_px im) y x [i] -> 0 <= i -> nth_error (triples (i_pal im)) (Z.to_nat i) = Some c -> ~ In c PALETTE ->
  pixel_at (i_px im') y x [pil_best lib c].
Proof.
  intros lib im im' y x i c E P I C IP. unfold fix_palette in E. destruct (i_bpp im =? 8); [|discriminate].
  destruct (zlist_eqb (i_pal im) PIL_PALETTE) eqn:Z.
  - exfalso. apply zlist_eqb_eq in Z. rewrite Z in C. apply IP. eapply nth_error_In. exact C.
  - destruct (fill_remap lib 0 (triples (i_pal im)) identity_remap) as [t|] eqn:F; [cbn [bind] in E|discriminate].
    unfold remap_image in E. destruct (i_bpp im =? 8); [|discriminate]. destruct (remap_px t (i_px im)) as [px|] eqn:RP; [cbn [bind] in E|discriminate]. apply some_inj in E. subst im'.
    destruct (remap_px_at _ _ _ _ _ _ RP P) as [B R]. destruct (fill_remap_spec lib _ 0 _ _ ltac:(lia) F) as (_ & _ & N & _).
    destruct (N _ _ C) as [N1 _]. cbn [Z.to_nat Nat.add] in N1. rewrite N1 in R. unfold resolved in R.
    destruct (lookup_colour c) as [k|] eqn:LK; [|exact R]. exfalso. apply IP. apply lookup_some in LK as [_ LK]. eapply nth_error_In. exact LK.
Qed.
(** The result is an image of the same size in the game's palette, so a second
    conversion changes nothing; an image already in it is left alone. *)
Theorem C61_stable : forall lib im im', fix_palette lib im = Some im' ->
  i_w im' = i_w im /\ i_h im' = i_h im /\ i_bpp im' = 8 /\ i_pal im' = PIL_PALETTE /\ fix_palette lib im' = Some im'
  /\ (i_pal im = PIL_PALETTE -> im' = im).
Proof.
  intros lib im im' E. unfold fix_palette in E. destruct (Z.eqb_spec (i_bpp im) 8) as [B|]; [|discriminate].
  destruct (zlist_eqb (i_pal im) PIL_PALETTE) eqn:Z.
  - apply some_inj in E. subst im'. pose proof Z as Z'. apply zlist_eqb_eq in Z'. repeat split; auto. unfold fix_palette. now rewrite B, Z.
  - destruct (fill_remap lib 0 (triples (i_pal im)) identity_remap) as [t|] eqn:F; [cbn [bind] in E|discriminate].
    unfold remap_image in E. destruct (i_bpp im =? 8); [|discriminate]. destruct (remap_px t (i_px im)) as [px|] eqn:RP; [cbn [bind] in E|discriminate]. apply some_inj in E. subst im'.
    cbn [i_w i_h i_bpp i_pal]. repeat split; auto.
    intros H. rewrite H, zlist_eqb_refl in Z. discriminate.
Qed.
(** The conversion accepts every palette of at most 256 colours if the colour
    search answers with a palette index. *)
Theorem C61_total : forall lib im, i_bpp im = 8 -> (length (triples (i_pal im)) <= 256)%nat -> (forall c, 0 <= pil_best lib c < 256) ->
  is_layer (i_h im) (i_w im) 1 (i_px im) -> exists im', fix_palette lib im = Some im' /\ is_layer (i_h im) (i_w im) 1 (i_px im').
Proof.
  intros lib im B L PB LY. unfold fix_palette. rewrite B, Z.eqb_refl. destruct (zlist_eqb (i_pal im) PIL_PALETTE); [eauto|].
  assert (RB : forall c, 0 <= resolved lib c < 256). { intros c. unfold resolved. destruct (lookup_colour c) eqn:E; [now apply lookup_some in E|apply PB]. }
  assert (Q : forall cs i t, 0 <= i -> length t = 256%nat -> Forall (fun c => 0 <= c < 256) t -> i + len cs <= 256 ->
     exists t', fill_remap lib i cs t = Some t' /\ length t' = 256%nat /\ Forall (fun c => 0 <= c < 256) t').
  { induction cs as [|c cs IH]; intros i t I Lt Ft Li; cbn [fill_remap]; [eauto|]. fold (resolved lib c). unfold remap_set, len in *. rewrite Lt. cbn [length] in Li.
    specialize (RB c). replace ((0 <=? i) && (i <? Z.of_nat 256) && byteb (resolved lib c)) with true by (unfold byteb; lia). cbn [bind].
    apply IH; [lia|now rewrite set_nth_length| |lia].
    apply Forall_forall. intros u U. apply (In_nth _ _ 0) in U as (n & Hn & <-). rewrite set_nth_length in Hn. rewrite set_nth_nth by lia.
    destruct (n =? Z.to_nat i)%nat; [lia|]. rewrite Forall_forall in Ft. apply Ft, nth_In. lia. }
  destruct (Q (triples (i_pal im)) 0 identity_remap) as (t & -> & Lt & Ft); [lia|reflexivity|apply Forall_forall; intros u U; apply in_map_iff in U as (n & <- & N); apply in_seq in N; lia|unfold len; lia|].
  cbn [bind]. unfold remap_image. rewrite B. cbn [Z.eqb Pos.eqb]. unfold remap_px.
  match goal with |- context [if ?c then _ else _] => replace c with true end.
  - cbn [bind]. eexists. split; [reflexivity|]. cbn [i_px]. eapply map_px_layer; [exact LY|]. intros p Lp Fp. destruct p as [|i [|]]; try discriminate Lp.
    split; [reflexivity|]. constructor; [|constructor]. rewrite Forall_forall in Ft. apply Ft, nth_In. inversion Fp; subst. lia.
  - symmetry. apply forallb_forall. intros r R. apply forallb_forall. intros p P. destruct LY as [_ LY]. rewrite Forall_forall in LY. destruct (LY r R) as [_ LP]. rewrite Forall_forall in LP.
    destruct (LP p P) as [L1 F1]. destruct p as [|i [|]]; try discriminate L1. inversion F1; subst. unfold len. rewrite Lt. lia.
Qed.
(** Index 0 means transparent, but it is converted like any colour: background
    becomes solid, and solid blue becomes background. *)
Theorem C61_background_refuted : forall lib, exists im im', fix_palette lib im = Some im' /\ i_bpp im = 8 /\
  pixel_at (i_px im) 0 0 [0] /\ pixel_at (i_px im') 0 0 [1] /\ pixel_at (i_px im) 0 1 [1] /\ pixel_at (i_px im') 0 1 [0].
Proof.
  intros lib. exists (mk_image 8 2 1 [16; 16; 16; 0; 0; 255] [[[0]; [1]]]). eexists. split; [reflexivity|]. split; [reflexivity|].
  repeat split; eexists; split; reflexivity.
Qed.

(** Quantising uses the safe colours only and never makes a visible pixel
    transparent: alpha 128 and over stays, less becomes index 0. *)
Theorem C61_quantize : forall lib im im' y x p q, quantize lib im = Some im' -> pixel_at (i_px im) y x p -> pixel_at (i_px im') y x q ->
  (i_bpp im = 32 /\ nth 3 p 0 < 128 -> q = [0]) /\
  (~ (i_bpp im = 32 /\ nth 3 p 0 < 128) -> exists j, q = [j] /\ (1 <= j <= 214 \/ j = 255)).
Proof.
  intros lib im im' y x p q E P Q. unfold quantize in E.
  set (pk := pil_pick lib _) in E. destruct (remap_px SAFE_COLOURS pk) as [px|] eqn:R; [cbn [bind] in E|discriminate]. apply some_inj in E. subst im'. cbn [i_px] in Q.
  assert (SC : forall y x u, pixel_at px y x u -> exists j, u = [j] /\ (1 <= j <= 214 \/ j = 255)).
  { clear - R. intros y x u (row & Rr & Pu). pose proof R as R'. unfold remap_px in R'.
    match type of R' with (if ?c then _ else _) = _ => destruct c eqn:C; [|discriminate] end. apply some_inj in R'. subst px.
    unfold map_px in Rr. rewrite nth_error_map in Rr. destruct (nth_error pk (Z.to_nat y)) as [r0|] eqn:R0; [|discriminate]. cbn in Rr. apply some_inj in Rr. subst row.
    rewrite nth_error_map in Pu. destruct (nth_error r0 (Z.to_nat x)) as [u0|] eqn:U0; [|discriminate]. cbn [option_map] in Pu. apply some_inj in Pu.
    pose proof (proj1 (forallb_forall _ _) C r0 (nth_error_In _ _ R0)) as D. pose proof (proj1 (forallb_forall _ _) D u0 (nth_error_In _ _ U0)) as F. cbn beta in F.
    destruct u0 as [|i [|]]; try discriminate F. exists (nth (Z.to_nat i) SAFE_COLOURS 0). split; [now rewrite <- Pu|].
    assert (I : In (nth (Z.to_nat i) SAFE_COLOURS 0) SAFE_COLOURS) by (apply nth_In; unfold len in F; lia).
    generalize dependent (nth (Z.to_nat i) SAFE_COLOURS 0). intros v I.
    unfold SAFE_COLOURS in I. apply in_app_or in I as [I | [I | []]]; [|right; now symmetry].
    apply in_map_iff in I as (n & E & N). apply in_seq in N. rewrite <- E. left. lia. }
  destruct (Z.eqb_spec (i_bpp im) 32) as [B|B].
  - assert (exists u, pixel_at px y x u) as [u U].
    { destruct Q as (row & Rr & Pq). rewrite nth_error_map in Rr. destruct (nth_error (combine px (i_px im)) (Z.to_nat y)) as [[r1 r2]|] eqn:C; [|discriminate]. cbn in Rr. apply some_inj in Rr. subst row.
      rewrite nth_error_map in Pq. destruct (nth_error (combine r1 r2) (Z.to_nat x)) as [[u1 u2]|] eqn:D; [|discriminate].
      assert (CN : forall {A B} (a : list A) (b : list B) i e, nth_error (combine a b) i = Some e -> nth_error a i = Some (fst e)).
      { clear. induction a as [|u a IH]; intros [|v b] [|i] e H; cbn in *; try discriminate; [apply some_inj in H; now subst|eauto]. }
      exists u1. exists r1. split; [exact (CN _ _ _ _ _ _ C)|exact (CN _ _ _ _ _ _ D)]. }
    pose proof (zip_layers_at (fun u p => if nth 3 p 0 <? 128 then [0] else u) px (i_px im) y x u p U P) as Z. unfold zip_layers in Z.
    pose proof (pixel_at_fun _ _ _ _ _ Q Z) as ->. destruct (Z.ltb_spec (nth 3 p 0) 128); split; intros H'; try reflexivity; try (exfalso; tauto); try lia.
    exact (SC _ _ _ U).
  - split; [intros [H _]; congruence|]. intros _. exact (SC _ _ _ Q).
Qed.

(** PaletteRemap: a recolour sprite is a zero and the 256 entries; ranges are
    applied in order, the last one that covers an entry wins. *)
Theorem C61_remap : forall rs t, set_ranges rs identity_remap = Some t ->
  length (remap_data t) = 257%nat /\ nth 0 (remap_data t) 1 = 0
  /\ forall i, 0 <= i < 256 -> 
     let covering := filter (fun r => let '(f, l, _) := r in (f <=? i) && (i <=? l)) rs in
     nth (Z.to_nat (i + 1)) (remap_data t) 0 = match rev covering with (_, _, v) :: _ => v | [] => i end.
Proof.
  intros rs t E. destruct (set_ranges_spec _ _ _ E) as [L N]. split; [cbn; now rewrite L|]. split; [reflexivity|].
  intros i I covering. unfold remap_data. replace (Z.to_nat (i + 1)) with (S (Z.to_nat i)) by lia. cbn [nth].
  rewrite N by (unfold len; cbn [length]; exact I).
  assert (ID : nth (Z.to_nat i) identity_remap 0 = i).
  { unfold identity_remap. change 0 with (Z.of_nat 0) at 1. rewrite map_nth, seq_nth by lia. lia. }
  rewrite ID. unfold covering. clear.
  enough (G : forall d, last_range rs i d = match rev (filter (fun r => let '(f, l, _) := r in (f <=? i) && (i <=? l)) rs) with (_, _, v) :: _ => v | [] => d end) by apply G.
  induction rs as [|[[f l] v] rs IH]; intros d; cbn [last_range filter]; [reflexivity|].
  rewrite IH. destruct ((f <=? i) && (i <=? l)); [|reflexivity]. cbn [rev]. destruct (rev (filter _ rs)) as [|[[? ?] ?] ?]; reflexivity.
Qed.
(** A remap made from the 256 entries of a recolour sprite writes it again;
    the decompiler passes the leading zero along, and one byte too much is
    written. *)
Theorem C61_round_trip : forall entries t, from_array entries = Some t -> remap_data t = 0 :: entries /\ remap_data (from_buffer entries) = 0 :: entries.
Proof. intros entries t. unfold from_array. destruct (len entries =? 256); [|discriminate]. destruct (bytesb entries); [|discriminate]. intros E. apply some_inj in E. now subst. Qed.
Theorem C61_decompiled_refuted : forall sprite, length sprite = 257%nat -> length (remap_data (from_buffer sprite)) = 258%nat.
Proof. intros s L. unfold remap_data, from_buffer. cbn [length]. now rewrite L. Qed.

(** Concrete cases. *)
Definition ex_lib : pil :=
  mk_pil (fun d => match d with
                   | [1] => Some (mk_image 32 3 2 [] [[[10; 20; 30; 255]; [1; 2; 3; 200]; [9; 9; 9; 7]]; [[255; 0; 255; 255]; [4; 5; 6; 255]; [0; 0; 0; 0]]])
                   | [2] => Some (mk_image 8 2 2 PIL_PALETTE [[[0]; [5]]; [[7]; [0]]])
                   | _ => None end)
         (fun i => i) (fun i => i) (fun im => map (map (fun _ => [3])) (i_px im)) (fun _ => 17).
Definition ex_files : world := fun p => match p with [97] => Some ([49; 46; 48], [1]) | [98] => Some ([50; 46; 48], [2]) | _ => None end.
Definition ex_a : attrs := mk_attrs (Some 2) (Some 2) 0 0 0 None true.
Definition ex_sprite : tree := TFile ex_a [97] (Some (255, 0, 255)) 0 0 [].
Definition ex_mask : tree := TFile ex_a [98] None 0 0 [].
(** C60_mask, _mask_total and C60_file: a 32bpp sprite cut from a bigger file,
    with a key colour, under an 8bpp mask, overdrawing. *)
Example C60_case : exists t, new_mask ex_sprite ex_mask 1 = Some t /\
  get_layers ex_lib ex_files t = Some (mk_layers 2 2
    (Some [[[10; 20; 30]; [128; 128; 128]]; [[128; 128; 128]; [4; 5; 6]]])
    (Some [[[255]; [255]]; [[255]; [255]]]) (Some [[[0]; [5]]; [[7]; [0]]])).
Proof. eexists. split; reflexivity. Qed.
Example C60_case_key : get_layers ex_lib ex_files ex_sprite = Some (mk_layers 2 2
    (Some [[[10; 20; 30]; [1; 2; 3]]; [[255; 0; 255]; [4; 5; 6]]]) (Some [[[255]; [200]]; [[0]; [255]]]) None).
Proof. reflexivity. Qed.
(** C60_converted: the 32bpp file asked for as 8bpp. *)
Example C60_case_converted : get_layers ex_lib ex_files (TFile (mk_attrs (Some 2) (Some 2) 0 0 0 (Some 8) true) [97] None 1 0 [])
  = Some (mk_layers 2 2 None None (Some [[[4]; [0]]; [[4]; [0]]])).
Proof. reflexivity. Qed.
Example C60_case_refused : exists t, new_mask ex_sprite TEmpty 1 = Some t /\ get_layers ex_lib ex_files t = None.
Proof. eexists. split; reflexivity. Qed.
Example C60_case_move : exists b, real_data ex_lib (fun d => d) ex_files (new_move (new_move ex_mask 5 1) (-7) 2) = Some b /\ firstn 10 b = [68; 0; 2; 0; 2; 0; 254; 255; 3; 0].
Proof. eexists. split; reflexivity. Qed.
(** C61: an image with a palette of three colours, two of them the game's and
    one of another kind. *)
Example C61_case : fix_palette ex_lib (mk_image 8 2 2 [32; 32; 32; 1; 2; 3; 48; 48; 48] [[[0]; [1]]; [[2]; [2]]])
  = Some (mk_image 8 2 2 PIL_PALETTE [[[2]; [17]]; [[3]; [3]]]).
Proof. reflexivity. Qed.
Example C60_case_quantize : exists im d, get_layers ex_lib (fun _ => None) (new_quant (TImage (mk_attrs (Some 2) (Some 1) 0 0 0 (Some 32) true) im)) = Some d
  /\ l_mask d = Some [[[4]; [0]]].
Proof. exists (mk_image 32 2 1 [] [[[1; 2; 3; 128]; [1; 2; 3; 127]]]). eexists. split; [vm_compute|]; reflexivity. Qed.
Example C61_case_quantize : quantize ex_lib (mk_image 32 2 1 [] [[[1; 2; 3; 128]; [1; 2; 3; 127]]]) = Some (mk_image 8 2 1 PIL_PALETTE [[[4]; [0]]]).
Proof. reflexivity. Qed.
Example C61_case_remap : exists t, set_ranges [(1, 3, 9); (3, 5, 8)] identity_remap = Some t /\ firstn 8 (remap_data t) = [0; 0; 9; 9; 8; 8; 8; 6].
Proof. eexists. split; reflexivity. Qed.

Print Assumptions C60_mask.
Print Assumptions C60_mask_total.
Print Assumptions C60_mask_refused.
Print Assumptions C60_file.
Print Assumptions C60_converted.
Print Assumptions C60_file_inside.
Print Assumptions C60_file_whole.
Print Assumptions C60_width_refuted.
Print Assumptions C60_key_8bpp_refuted.
Print Assumptions C60_move.
Print Assumptions C60_move_twice.
Print Assumptions C61_exact.
Print Assumptions C61_near.
Print Assumptions C61_stable.
Print Assumptions C61_total.
Print Assumptions C61_background_refuted.
Print Assumptions C60_quantize.
Print Assumptions C60_mask_depth.
Print Assumptions C60_place.
Print Assumptions C60_crop.
Print Assumptions C61_quantize.
Print Assumptions C61_remap.
Print Assumptions C61_round_trip.
Print Assumptions C61_decompiled_refuted.
