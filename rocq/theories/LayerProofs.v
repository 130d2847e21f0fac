(** Pixels of sprites. *)
From Coq Require Import ZArith List Bool Lia.
From Verif Require Import Base BaseFacts SpriteModel SpecDecode SpecSprite SpriteProofs RealProofs CacheModel JsonModel TreeModel SpecTree SpecLayers.
Import ListNotations.
Open Scope Z_scope.

Definition pic_of (d : layers) : picture := mk_picture (l_rgb d) (l_alpha d) (l_mask d).

Lemma combine_nth {A B} (a : list A) (b : list B) i x y : nth_error a i = Some x -> nth_error b i = Some y -> nth_error (combine a b) i = Some (x, y).
Proof.
  revert b i. induction a as [|u a IH]; intros [|v b] [|i] H1 H2; cbn in *; try discriminate; [congruence|auto].
Qed.
Lemma zip_layers_at f m l y x q p : pixel_at m y x q -> pixel_at l y x p -> pixel_at (zip_layers f m l) y x (f q p).
Proof.
  intros (r1 & R1 & Q) (r2 & R2 & P). unfold zip_layers, pixel_at. eexists. split.
  - rewrite nth_error_map, (combine_nth _ _ _ _ _ R1 R2). reflexivity.
  - cbn [fst snd]. rewrite nth_error_map, (combine_nth _ _ _ _ _ Q P). reflexivity.
Qed.
Lemma map_px_at f l y x p : pixel_at l y x p -> pixel_at (map_px f l) y x (f p).
Proof.
  intros (r & R & P). unfold map_px, pixel_at. eexists. split; [rewrite nth_error_map, R; reflexivity|]. rewrite nth_error_map, P. reflexivity.
Qed.

Lemma has_shape_inv h w k l : has_shape h w k l = true -> len l = h /\ Forall (fun row => len row = w /\ Forall (fun p => length p = k) row) l.
Proof.
  unfold has_shape. intros H. apply andb_prop in H as [A B]. split; [lia|]. apply Forall_forall. intros r R.
  pose proof (proj1 (forallb_forall _ _) B r R) as C. cbn beta in C. apply andb_prop in C as [C D]. split; [lia|].
  apply Forall_forall. intros p P. pose proof (proj1 (forallb_forall _ _) D p P) as E. cbn beta in E. now apply Nat.eqb_eq in E.
Qed.
Lemma shape_pixel h w k l y x : has_shape h w k l = true -> 0 <= y < h -> 0 <= x < w -> exists p, pixel_at l y x p /\ length p = k.
Proof.
  intros S Y X. apply has_shape_inv in S as [L F]. unfold len in *.
  destruct (nth_error l (Z.to_nat y)) as [row|] eqn:R; [|apply nth_error_None in R; lia].
  pose proof (nth_error_In _ _ R) as I. rewrite Forall_forall in F. destruct (F row I) as [W Fp].
  destruct (nth_error row (Z.to_nat x)) as [p|] eqn:P; [|apply nth_error_None in P; lia].
  exists p. split; [exists row; auto|]. rewrite Forall_forall in Fp. apply Fp. eapply nth_error_In; eauto.
Qed.
Lemma shape_pixel_len h w k l y x p : has_shape h w k l = true -> pixel_at l y x p -> length p = k.
Proof.
  intros S (row & R & P). apply has_shape_inv in S as [L F]. rewrite Forall_forall in F. destruct (F row (nth_error_In _ _ R)) as [_ Fp].
  rewrite Forall_forall in Fp. apply Fp. eapply nth_error_In; eauto.
Qed.

Lemma mask_layers_at mode d e r q v y x : mask_layers mode d e = Some r -> pixel_of (pic_of d) y x v ->
  pixel_of (pic_of e) y x (mk_pixel None None (Some [q])) -> pixel_of (pic_of r) y x (put_mask (mode =? 1) q v).
Proof.
  unfold mask_layers. intros E (Vr & Va & Vm) (_ & _ & Q). cbn [pic_of p_rgb p_alpha p_mask x_mask] in *.
  destruct ((l_w d =? l_w e) && (l_h d =? l_h e)); [|discriminate].
  destruct (l_rgb e); [discriminate|]. destruct (l_alpha e); [discriminate|]. destruct (l_mask e) as [mm|]; [cbn [bind] in E|discriminate].
  match type of E with (if ?c then _ else _) = _ => destruct c; [|discriminate] end.
  cbn [layer_at] in Q.
  assert (WM : forall l p c, layer_at l y x p -> layer_at (option_map (zip_layers (fun q p => if nonzero q then c q else p) mm) l) y x
             (option_map (fun p => if nonzero [q] then c [q] else p) p)).
  { intros [l|] [p|] c H; cbn [layer_at option_map] in *; try contradiction; [|exact I]. now apply (zip_layers_at (fun q p => if nonzero q then c q else p)). }
  assert (NZ : nonzero [q] = negb (q =? 0)) by (unfold nonzero; cbn; now rewrite orb_false_r).
  assert (MK : layer_at (match l_mask d with Some _ => option_map (zip_layers (fun q p => if nonzero q then q else p) mm) (l_mask d) | None => Some mm end) y x
               (if q =? 0 then match x_mask v with Some m => Some m | None => Some [0] end else Some [q])).
  { pose proof (WM (l_mask d) (x_mask v) (fun q => q) Vm) as W. rewrite NZ in W.
    destruct (l_mask d) as [ml|], (x_mask v) as [mv|]; cbn [layer_at option_map] in *; try contradiction.
    - destruct (q =? 0); cbn [negb] in W; exact W.
    - destruct (Z.eqb_spec q 0); [subst q|]; exact Q. }
  destruct (mode =? 1) eqn:M; apply some_inj in E; subst r; unfold put_mask, pixel_of; cbn [pic_of p_rgb p_alpha p_mask l_rgb l_alpha l_mask].
  - pose proof (WM (l_rgb d) (x_rgb v) (fun _ => [128; 128; 128]) Vr) as W1. pose proof (WM (l_alpha d) (x_alpha v) (fun _ => [255]) Va) as W2. rewrite NZ in W1, W2.
    destruct (q =? 0); cbn [negb x_rgb x_alpha x_mask] in *; repeat split; try exact MK; try assumption.
    + destruct (x_rgb v); exact W1.
    + destruct (x_alpha v); exact W2.
  - destruct (q =? 0); cbn [x_rgb x_alpha x_mask]; repeat split; assumption.
Qed.

Lemma mask_layers_size mode d e r : mask_layers mode d e = Some r ->
  l_w r = l_w d /\ l_h r = l_h d /\ l_w e = l_w d /\ l_h e = l_h d /\ l_rgb e = None /\ l_alpha e = None /\
  exists mm, l_mask e = Some mm /\ has_shape (l_h d) (l_w d) 1 mm = true /\
    shape_ok (l_h d) (l_w d) 3 (l_rgb d) = true /\ shape_ok (l_h d) (l_w d) 1 (l_alpha d) = true /\ shape_ok (l_h d) (l_w d) 1 (l_mask d) = true.
Proof.
  unfold mask_layers. intros E. destruct ((l_w d =? l_w e) && (l_h d =? l_h e)) eqn:WH; [|discriminate]. apply andb_prop in WH as [Wq Hq].
  destruct (l_rgb e); [discriminate|]. destruct (l_alpha e); [discriminate|]. destruct (l_mask e) as [mm|]; [cbn [bind] in E|discriminate].
  match type of E with (if ?c then _ else _) = _ => destruct c eqn:S; [|discriminate] end.
  apply andb_prop in S as [S S4]. apply andb_prop in S as [S S3]. apply andb_prop in S as [S1 S2].
  destruct (mode =? 1); apply some_inj in E; subst r; cbn [l_w l_h]; repeat split; try lia; eauto 10.
Qed.

(** File sprites. *)
Lemma cut_at l cx cy w h y x p : 0 <= cx -> 0 <= cy -> 0 <= y < h -> 0 <= x < w ->
  pixel_at l (cy + y) (cx + x) p -> pixel_at (cut cx cy w h l) y x p.
Proof. intros A B C D P. apply cut_pixel; [assumption..|]. now rewrite (Z.add_comm y), (Z.add_comm x). Qed.

Lemma key_layers_at ck d r v y x : key_layers ck d = Some r -> 0 <= y < l_h d -> 0 <= x < l_w d -> pixel_of (pic_of d) y x v ->
  exists v', pixel_of (pic_of r) y x v' /\ x_rgb v' = x_rgb v /\ x_mask v' = x_mask v /\
    match ck with
    | None => v' = v
    | Some (kr, kg, kb) => (x_rgb v = Some [kr; kg; kb] -> x_alpha v' = Some [0]) /\ (x_rgb v <> Some [kr; kg; kb] -> opacity v' = opacity v)
    end.
Proof.
  unfold key_layers. destruct ck as [[[kr kg] kb]|].
  2: { intros E _ _ V. apply some_inj in E. subst r. exists v. auto. }
  destruct (l_rgb d) as [rgb|] eqn:R; [cbn [bind]|discriminate].
  destruct (shape_ok (l_h d) (l_w d) 3 (Some rgb)) eqn:S3; [cbn [andb]|discriminate].
  destruct (shape_ok (l_h d) (l_w d) 1 (l_alpha d)) eqn:S1; [|discriminate].
  set (is_key := fun p : list Z => match p with [r; g; b] => (r =? kr) && (g =? kg) && (b =? kb) | _ => false end).
  assert (IK : forall p, is_key p = true <-> p = [kr; kg; kb]).
  { intros p. unfold is_key. destruct p as [|a [|b [|c [|]]]]; split; intros H; try discriminate.
    - apply andb_prop in H as [H1 H2]. apply andb_prop in H1 as [H0 H1]. f_equal; [|f_equal; [|f_equal]]; lia.
    - injection H as -> -> ->. now rewrite !Z.eqb_refl. }
  intros E Y X (Vr & Va & Vm). cbn [pic_of p_rgb p_alpha p_mask] in *. rewrite R in Vr.
  destruct (x_rgb v) as [p|] eqn:XR; [cbn [layer_at] in Vr|contradiction].
  destruct (existsb (existsb is_key) rgb) eqn:K; apply some_inj in E; subst r.
  - set (alpha := or_else (l_alpha d) (map_px (fun _ => [255]) rgb)).
    assert (A : pixel_at alpha y x (opacity v)).
    { unfold alpha, opacity, or_else. destruct (l_alpha d) as [al|], (x_alpha v) as [av|]; cbn [layer_at] in Va; try contradiction; [exact Va|].
      exact (map_px_at (fun _ => [255]) rgb y x p Vr). }
    exists (mk_pixel (Some p) (Some (if is_key p then [0] else opacity v)) (x_mask v)). cbn [x_rgb x_alpha x_mask].
    split; [|split; [reflexivity|split; [reflexivity|]]].
    + unfold pixel_of. cbn [pic_of p_rgb p_alpha p_mask l_rgb l_alpha l_mask x_rgb x_alpha x_mask layer_at]. repeat split; try assumption.
      exact (zip_layers_at (fun p a => if is_key p then [0] else a) rgb alpha y x p (opacity v) Vr A).
    + split; intros H.
      * assert (p = [kr; kg; kb]) as Hp by congruence. rewrite (proj2 (IK p) Hp). reflexivity.
      * unfold opacity at 1. cbn [x_alpha]. destruct (is_key p) eqn:IP; [|reflexivity]. apply IK in IP. subst p. congruence.
  - exists v. split; [unfold pixel_of; cbn [pic_of p_rgb p_alpha p_mask]; rewrite R, XR; auto|]. split; [exact XR|]. split; [reflexivity|].
    split; [|auto]. intros H. exfalso. assert (p = [kr; kg; kb]) as Hp by congruence. apply IK in Hp.
    destruct Vr as (row & Rr & Pp). assert (true = false); [|discriminate]. rewrite <- K. symmetry. apply existsb_exists. exists row.
    split; [eapply nth_error_In; eauto|]. apply existsb_exists. exists p. split; [eapply nth_error_In; eauto|exact Hp].
Qed.

Lemma file_image_inv lib W a path x y kw im : file_image lib W a path x y kw = Some im ->
  kw = [] /\ exists m data full w h, W path = Some (m, data) /\ pil_open lib data = Some full /\
    (match a_w a, a_h a with Some w', Some h' => w = w' /\ h = h' | _, _ => w = i_w full /\ h = i_h full end) /\
    0 <= x /\ 0 <= y /\ 0 <= w /\ 0 <= h /\ x + w <= i_w full /\ y + h <= i_h full /\
    im = mk_image (i_bpp full) w h (i_pal full) (cut x y w h (i_px full)).
Proof.
  unfold file_image. destruct kw; [|discriminate]. intros E. split; [reflexivity|]. destruct (W path) as [[m data]|]; [cbn [bind] in E|discriminate].
  destruct (pil_open lib data) as [full|] eqn:O; [cbn [bind] in E|discriminate].
  exists m, data, full. destruct (a_w a) as [w|], (a_h a) as [h|]; cbn [bind] in E.
  - match type of E with (if ?c then _ else _) = _ => destruct c eqn:C; [|discriminate] end.
    match type of E with (if ?c then _ else _) = _ => destruct c eqn:D; [|discriminate] end.
    apply some_inj in E. exists w, h. repeat split; auto; lia.
  - destruct ((x =? 0) && (y =? 0)) eqn:Z0; cbn [bind] in E; [|discriminate].
    match type of E with (if ?c then _ else _) = _ => destruct c eqn:C; [|discriminate] end.
    match type of E with (if ?c then _ else _) = _ => destruct c eqn:D; [|discriminate] end.
    apply some_inj in E. exists (i_w full), (i_h full). repeat split; auto; lia.
  - match type of E with (if ?c then _ else _) = _ => destruct c eqn:C; [|discriminate] end.
    match type of E with (if ?c then _ else _) = _ => destruct c eqn:D; [|discriminate] end.
    apply some_inj in E. exists (i_w full), (i_h full). repeat split; auto; lia.
  - match type of E with (if ?c then _ else _) = _ => destruct c eqn:C; [|discriminate] end.
    match type of E with (if ?c then _ else _) = _ => destruct c eqn:D; [|discriminate] end.
    apply some_inj in E. exists (i_w full), (i_h full). repeat split; auto; lia.
Qed.
