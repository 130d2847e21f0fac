(** Cropping (C45), real sprite records (C46), sounds (C57), the RGBA
    shortcut (C58). *)
From Coq Require Import ZArith List Bool Lia.
From Verif Require Import Base BaseFacts DecodeModel SpecDecode DecodeProofs ChunkProofs SpriteModel SpecSprite
  SpriteProofs ContainerModel RealProofs PropsDecode.
Import ListNotations.
Open Scope Z_scope.

(** ---- C45 ---- *)

(** A cropped sprite, drawn at its new offsets, puts at every screen position
    either exactly the pixels the full sprite put there or nothing ... *)
Theorem C45_nothing_moves : forall crop d cx cy c ox oy X Y,
  is_picture (l_h d) (l_w d) (pic d) -> 0 < l_w d -> 0 < l_h d ->
  do_crop crop d = Some (cx, cy, c) ->
  same_at (pic d) (pic c) ox oy (ox + cx) (oy + cy) X Y \/ blank_at (pic c) (ox + cx) (oy + cy) X Y.
Proof.
  intros crop d cx cy c ox oy X Y P Hw Hh E.
  destruct (crop_picture crop d cx cy c P Hw Hh E) as (Pc & Hcx & Hcy & W & H & _).
  destruct (crop_layers crop d cx cy c E) as [(_ & -> & -> & ->)|(E1 & E2 & E3)].
  - left. rewrite !Z.add_0_r. intros sel I. destruct (sel (pic d)); [|exact Logic.I]. intros v. reflexivity.
  - assert (D : (0 <= X - (ox + cx) < l_w c /\ 0 <= Y - (oy + cy) < l_h c)
                \/ ~ (0 <= X - (ox + cx) < l_w c /\ 0 <= Y - (oy + cy) < l_h c)) by lia.
    destruct D as [[A B]|N].
    + left. intros sel [<-|[<-|[<-|[]]]]; cbn [pic p_rgb p_alpha p_mask]; rewrite ?E1, ?E2, ?E3.
      * destruct (l_rgb d); cbn [option_map]; [|exact Logic.I]. intros v. apply drawn_cut; assumption.
      * destruct (l_alpha d); cbn [option_map]; [|exact Logic.I]. intros v. apply drawn_cut; assumption.
      * destruct (l_mask d); cbn [option_map]; [|exact Logic.I]. intros v. apply drawn_cut; assumption.
    + right. intros sel l v I Es (D1 & D2 & D3). apply N. destruct Pc as (Q1 & Q2 & Q3).
      assert (L : exists k, is_layer (l_h c) (l_w c) k l).
      { destruct I as [<-|[<-|[<-|[]]]]; eauto. }
      destruct L as (k & L). destruct (layer_pixel_range _ _ _ _ _ _ _ L D2 D1 D3). lia.
Qed.

Lemma key_same : forall d key cx cy c ox oy X Y v,
  is_picture (l_h d) (l_w d) (pic d) -> 0 < l_w d -> 0 < l_h d ->
  do_crop true d = Some (cx, cy, c) -> key_layer d = Some key ->
  drawn key ox oy X Y v -> marked v ->
  same_at (pic d) (pic c) ox oy (ox + cx) (oy + cy) X Y.
Proof.
  intros d key cx cy c ox oy X Y v P Hw Hh E K (D1 & D2 & D3) M.
  destruct (crop_picture true d cx cy c P Hw Hh E) as (Pc & Hcx & Hcy & W & H & _).
  destruct (crop_keeps d key cx cy c _ _ _ P K E D2 D1 D3 M) as [A B].
  destruct (crop_layers true d cx cy c E) as [(Q & _)|(E1 & E2 & E3)]; [discriminate|].
  intros sel [<-|[<-|[<-|[]]]]; cbn [pic p_rgb p_alpha p_mask]; rewrite ?E1, ?E2, ?E3.
  - destruct (l_rgb d); cbn [option_map]; [|exact Logic.I]. intros u. apply drawn_cut; lia.
  - destruct (l_alpha d); cbn [option_map]; [|exact Logic.I]. intros u. apply drawn_cut; lia.
  - destruct (l_mask d); cbn [option_map]; [|exact Logic.I]. intros u. apply drawn_cut; lia.
Qed.

(** ... and where the game would show something it is exactly the old
    pixels.  (Sprites with an alpha layer, and palette sprites.  Missing:
    RGB without alpha, see the next theorems.) *)
Theorem C45_visible_kept_partial : forall crop d cx cy c ox oy X Y,
  is_picture (l_h d) (l_w d) (pic d) -> 0 < l_w d -> 0 < l_h d ->
  l_alpha d <> None \/ l_rgb d = None ->
  do_crop crop d = Some (cx, cy, c) -> visible (pic d) X Y ox oy ->
  same_at (pic d) (pic c) ox oy (ox + cx) (oy + cy) X Y.
Proof.
  intros crop d cx cy c ox oy X Y P Hw Hh F E V.
  destruct crop.
  - unfold visible in V. cbn [pic p_rgb p_alpha p_mask] in V.
    destruct (l_alpha d) as [a|] eqn:Ea.
    + destruct V as (v & D & M). apply (key_same d a cx cy c ox oy X Y v P Hw Hh E); [|exact D|exact M].
      unfold key_layer. rewrite Ea. reflexivity.
    + destruct F as [F|F]; [contradiction F; reflexivity|]. rewrite F in V.
      destruct (l_mask d) as [m|] eqn:Em; [|destruct V].
      destruct V as (v & D & M). apply (key_same d m cx cy c ox oy X Y v P Hw Hh E); [|exact D|exact M].
      unfold key_layer. rewrite Ea, F, Em. reflexivity.
  - unfold do_crop in E. cbn in E. injection E as <- <- <-. rewrite !Z.add_0_r.
    intros sel I. destruct (sel (pic d)); [|exact Logic.I]. intros v. reflexivity.
Qed.

(** RGB without alpha: every pixel that is not black keeps its place ... *)
Theorem C45_rgb_kept_partial : forall crop d rgb cx cy c ox oy X Y v,
  is_picture (l_h d) (l_w d) (pic d) -> 0 < l_w d -> 0 < l_h d ->
  l_alpha d = None -> l_rgb d = Some rgb ->
  do_crop crop d = Some (cx, cy, c) -> drawn rgb ox oy X Y v -> marked v ->
  same_at (pic d) (pic c) ox oy (ox + cx) (oy + cy) X Y.
Proof.
  intros crop d rgb cx cy c ox oy X Y v P Hw Hh Ea Er E D M. destruct crop.
  - apply (key_same d rgb cx cy c ox oy X Y v P Hw Hh E); [|exact D|exact M].
    unfold key_layer. rewrite Ea, Er. reflexivity.
  - unfold do_crop in E. cbn in E. injection E as <- <- <-. rewrite !Z.add_0_r.
    intros sel I. destruct (sel (pic d)); [|exact Logic.I]. intros u. reflexivity.
Qed.

(** ... but opaque black pixels on the border are cut off: C45 in full is
    false. *)
Theorem C45_opaque_black_refuted :
  exists d cx cy c X Y, is_picture (l_h d) (l_w d) (pic d) /\ 0 < l_w d /\ 0 < l_h d
    /\ do_crop true d = Some (cx, cy, c) /\ visible (pic d) X Y 0 0
    /\ blank_at (pic c) (0 + cx) (0 + cy) X Y.
Proof.
  exists (mk_layers 2 1 (Some [[[0; 0; 0]; [9; 9; 9]]]) None None), 1, 0,
    (mk_layers 1 1 (Some [[[9; 9; 9]]]) None None), 0, 0.
  split; [|split; [|split; [|split; [|split]]]].
  - split; [|split]; cbn; intros l E; try discriminate. injection E as <-.
    split; [reflexivity|]. constructor; [|constructor]. split; [reflexivity|].
    assert (P : forall a, 0 <= a < 256 -> Datatypes.length [a; a; a] = 3%nat /\ Forall (fun c => 0 <= c < 256) [a; a; a]).
    { intros a Ha. split; [reflexivity|]. constructor; [exact Ha|]. constructor; [exact Ha|]. constructor; [exact Ha|constructor]. }
    constructor; [apply P; lia|]. constructor; [apply P; lia|constructor].
  - cbn; lia.
  - cbn; lia.
  - reflexivity.
  - cbn. exists [0; 0; 0]. split; [lia|]. split; [lia|]. exists [[0; 0; 0]; [9; 9; 9]]. split; reflexivity.
  - intros sel l v [<-|[<-|[<-|[]]]] E; cbn in E; try discriminate. injection E as <-. intros (A & _). lia.
Qed.

(** Cropping always succeeds when there is a layer, and what is left is as
    small as possible: its first and last row and column hold a marked pixel
    of the deciding layer, or it is a single pixel. *)
Theorem C45_tight : forall d key,
  is_picture (l_h d) (l_w d) (pic d) -> 0 < l_w d -> 0 < l_h d -> key_layer d = Some key ->
  exists cx cy c, do_crop true d = Some (cx, cy, c) /\
  ((cx = 0 /\ cy = 0 /\ l_w c = 1 /\ l_h c = 1 /\ forall y x p, 0 <= y -> 0 <= x -> pixel_at key y x p -> ~ marked p)
   \/ ((exists y p, cy <= y < cy + l_h c /\ pixel_at key y cx p /\ marked p)
       /\ (exists y p, cy <= y < cy + l_h c /\ pixel_at key y (cx + l_w c - 1) p /\ marked p)
       /\ (exists x p, cx <= x < cx + l_w c /\ pixel_at key cy x p /\ marked p)
       /\ (exists x p, cx <= x < cx + l_w c /\ pixel_at key (cy + l_h c - 1) x p /\ marked p))).
Proof.
  intros d key P Hw Hh K. destruct (key_is_layer d key P K) as (k & L).
  pose proof (do_crop_eq d key K) as E. cbn zeta in E.
  eexists; eexists; eexists; split; [exact E|]. cbn [l_w l_h].
  assert (Cin : forall x, In x (cols_used (l_w d) key) <-> 0 <= x < l_w d /\ exists y p, 0 <= y < l_h d /\ pixel_at key y x p /\ marked p)
    by (intros x; apply (cols_used_in _ _ _ _ _ L)).
  assert (Rin : forall y, In y (rows_used (l_h d) key) <-> 0 <= y < l_h d /\ exists x p, 0 <= x < l_w d /\ pixel_at key y x p /\ marked p)
    by (intros y; apply (rows_used_in _ _ _ _ _ L)).
  clear E. revert Cin Rin. generalize (cols_used (l_w d) key) as cols, (rows_used (l_h d) key) as rows.
  intros cols rows Cin Rin.
  assert (Di : cols = [] \/ cols <> []) by (destruct cols; [left; reflexivity|right; discriminate]).
  destruct Di as [Ec|Nc].
  - left. assert (NoM : forall y x p, 0 <= y -> 0 <= x -> pixel_at key y x p -> ~ marked p).
    { intros y x p Hy Hx Px M. destruct (layer_pixel_range _ _ _ _ _ _ _ L Hy Hx Px).
      assert (I : In x cols).
      { apply Cin. split; [lia|]. exists y, p. split; [lia|]. split; assumption. }
      rewrite Ec in I. exact I. }
    assert (Er : rows = []).
    { destruct rows as [|r0 rows']; [reflexivity|]. exfalso.
      destruct (proj1 (Rin r0) (or_introl eq_refl)) as (Hy & x & p & Hx & Px & M).
      exact (NoM _ _ _ (proj1 Hy) (proj1 Hx) Px M). }
    rewrite Ec, Er. cbn [min_default max_default].
    split; [lia|]. split; [lia|]. split; [lia|]. split; [lia|]. exact NoM.
  - right.
    assert (Mk : forall x y p, 0 <= x < l_w d -> 0 <= y < l_h d -> pixel_at key y x p -> marked p ->
      min_default cols <= x <= max_default cols /\ min_default rows <= y <= max_default rows).
    { intros x y p Hx Hy Px M.
      assert (I : In x cols) by (apply Cin; split; [exact Hx|]; exists y, p; auto).
      assert (J : In y rows) by (apply Rin; split; [exact Hy|]; exists x, p; auto).
      pose proof (min_default_le _ _ I). pose proof (max_default_ge _ _ I).
      pose proof (min_default_le _ _ J). pose proof (max_default_ge _ _ J). lia. }
    assert (Nr : rows <> []).
    { destruct cols as [|c0 cols']; [contradiction|].
      destruct (proj1 (Cin c0) (or_introl eq_refl)) as (Hx & y & p & Hy & Px & M).
      intros Z0. assert (J : In y rows) by (apply Rin; split; [exact Hy|]; exists c0, p; auto).
      rewrite Z0 in J. exact J. }
    destruct (proj1 (Cin _) (min_default_in _ Nc)) as (A1 & y1 & p1 & B1 & C1 & D1).
    destruct (proj1 (Cin _) (max_default_in _ Nc)) as (A2 & y2 & p2 & B2 & C2 & D2).
    destruct (proj1 (Rin _) (min_default_in _ Nr)) as (A3 & x3 & p3 & B3 & C3 & D3).
    destruct (proj1 (Rin _) (max_default_in _ Nr)) as (A4 & x4 & p4 & B4 & C4 & D4).
    pose proof (Mk _ _ _ A1 B1 C1 D1). pose proof (Mk _ _ _ A2 B2 C2 D2).
    pose proof (Mk _ _ _ B3 A3 C3 D3). pose proof (Mk _ _ _ B4 A4 C4 D4).
    split; [|split; [|split]].
    + exists y1, p1. split; [lia|]. split; assumption.
    + exists y2, p2. split; [lia|]. split; [|assumption].
      replace (min_default cols + (max_default cols - min_default cols + 1) - 1) with (max_default cols) by lia. exact C2.
    + exists x3, p3. split; [lia|]. split; assumption.
    + exists x4, p4. split; [lia|]. split; [|assumption].
      replace (min_default rows + (max_default rows - min_default rows + 1) - 1) with (max_default rows) by lia. exact C4.
Qed.

Definition ex_layers : layers :=
  mk_layers 3 3 None (Some [[[0];[0];[0]];[[0];[200];[0]];[[0];[7];[0]]])
    (Some [[[5];[5];[5]];[[0];[1];[2]];[[3];[0];[4]]]).
Example C45_example :
  is_picture (l_h ex_layers) (l_w ex_layers) (pic ex_layers)
  /\ do_crop true ex_layers
     = Some (1, 1, mk_layers 1 2 None (Some [[[200]];[[7]]]) (Some [[[1]];[[0]]]))
  /\ visible (pic ex_layers) 11 21 10 20.
Proof.
  split; [|split; [reflexivity|]].
  - assert (G : forall l, has_shape 3 3 1 l = true -> forallb (forallb (forallb byteb)) l = true -> is_layer 3 3 1 l).
    { intros l A B. unfold has_shape, len in A. apply andb_true_iff in A as [A1 A2]. split; [apply Z.eqb_eq, A1|].
      apply Forall_forall. intros row I. rewrite forallb_forall in A2, B. specialize (A2 row I). specialize (B row I).
      apply andb_true_iff in A2 as [A2 A3]. split; [apply Z.eqb_eq, A2|]. rewrite forallb_forall in A3, B.
      apply Forall_forall. intros p J. specialize (A3 p J). specialize (B p J). split; [apply Nat.eqb_eq, A3|].
      rewrite forallb_forall in B. apply Forall_forall. intros c Kc. specialize (B c Kc). unfold byteb in B. lia. }
    split; [|split]; cbn [pic p_rgb p_alpha p_mask l_rgb l_alpha l_mask ex_layers l_h l_w];
      intros l E; try discriminate; injection E as <-; apply G; reflexivity.
  - cbn. exists [200]. split; [|exists 200; split; [left; reflexivity|discriminate]].
    split; [lia|]. split; [lia|]. eexists. split; reflexivity.
Qed.

(** ---- C46 ---- *)

Lemma pack_h_some : forall v, -32768 <= v < 32768 -> exists b, pack_h v = Some b /\ len b = 2.
Proof.
  intros v H. unfold pack_h. assert ((-32768 <=? v) && (v <? 32768) = true) as -> by lia.
  eexists. split; [reflexivity|reflexivity].
Qed.

(** The record written for a sprite is read back with the same size, zoom
    and (crop-adjusted) offsets, and decoding it gives, pixel by pixel, the
    channels of the cropped layers; a mask is left out only if it is all
    zero and there is another layer.  Reading ends exactly at the end of the
    record. *)
Theorem C46_round_trip : forall compress s d id kind rest,
  compressor compress ->
  is_picture (l_h d) (l_w d) (pic d) -> 0 < l_w d < 65536 -> 0 < l_h d < 65536 ->
  (l_rgb d <> None \/ l_alpha d <> None \/ l_mask d <> None) ->
  0 < id < 4294967296 -> (kind id = KGraphics \/ kind id = KDefault) ->
  0 <= s_zoom s < 256 ->
  -32768 <= s_xofs s -> s_xofs s + l_w d <= 32768 -> -32768 <= s_yofs s -> s_yofs s + l_h d <= 32768 ->
  exists cx cy c b, do_crop (s_crop s) d = Some (cx, cy, c) /\ get_real_data compress s d = Some b
  /\ forall record, write_resource id b = Some record ->
     exists pos g im, read_real_sprite kind (record ++ rest) = Some (Some (RGraphics id pos g, rest))
       /\ g_width g = l_w c /\ g_height g = l_h c /\ g_zoom g = s_zoom s
       /\ g_xofs g = s_xofs s + cx /\ g_yofs g = s_yofs s + cy
       /\ Z.testbit (g_type g) 0 = (match l_rgb c with Some _ => true | None => false end)
       /\ Z.testbit (g_type g) 1 = (match l_alpha c with Some _ => true | None => false end)
       /\ (Z.testbit (g_type g) 2 = true -> l_mask c <> None)
       /\ (Z.testbit (g_type g) 2 = false -> match l_mask c with None => True | Some m =>
             (l_rgb c <> None \/ l_alpha c <> None) /\ all_zero m end)
       /\ decode_sprite g 2 pos = Some (im, rest)
       /\ forall y x r a m, 0 <= y < l_h c -> 0 <= x < l_w c ->
            layer_pixel (l_rgb c) y x r -> layer_pixel (l_alpha c) y x a ->
            layer_pixel (if Z.testbit (g_type g) 2 then l_mask c else None) y x m ->
            pixel_at im y x (r ++ a ++ m).
Proof.
  intros compress s d id kind rest HC P Hw Hh Ne Hid Hk Hz X1 X2 Y1 Y2.
  assert (Ek : exists key, key_layer d = Some key).
  { unfold key_layer. destruct (l_alpha d); [eauto|]. destruct (l_rgb d); [eauto|]. destruct (l_mask d); [eauto|].
    exfalso. destruct Ne as [N|[N|N]]; apply N; reflexivity. }
  destruct Ek as (key & Ek).
  assert (Ec : exists cx cy c, do_crop (s_crop s) d = Some (cx, cy, c)).
  { destruct (s_crop s); [rewrite (do_crop_eq d key Ek); cbn zeta; eauto|].
    unfold do_crop. cbn [negb]. eauto. }
  destruct Ec as (cx & cy & c & Ec).
  destruct (crop_picture _ _ _ _ _ P ltac:(lia) ltac:(lia) Ec) as (Pc & Hcx & Hcy & Wc & Hc & Bx & By).
  assert (Nc : l_rgb c <> None \/ l_alpha c <> None \/ l_mask c <> None).
  { destruct (crop_layers _ _ _ _ _ Ec) as [(_ & _ & _ & ->)|(E1 & E2 & E3)]; [exact Ne|].
    rewrite E1, E2, E3. destruct (l_rgb d), (l_alpha d), (l_mask d); cbn [option_map];
      try (left; discriminate); try (right; left; discriminate); try (right; right; discriminate).
    exfalso. destruct Ne as [N|[N|N]]; apply N; reflexivity. }
  destruct (info_raw_ok c Pc ltac:(lia) ltac:(lia) Nc) as (px & Ei & Ip & Np).
  set (info := 64 + bit (l_rgb c) 1 + bit (l_alpha c) 2 + bit (kept_mask c) 4) in *.
  assert (Hi : 0 <= info < 256).
  { unfold info, bit. destruct (l_rgb c), (l_alpha c), (kept_mask c); lia. }
  destruct (HC (concat px) (concat_pixels_bytes _ _ _ Ip)) as (bs & Es & V & NO & Ex).
  destruct (pack_h_some (s_xofs s + cx) ltac:(lia)) as (bx & Ebx & Lbx).
  destruct (pack_h_some (s_yofs s + cy) ltac:(lia)) as (by_ & Eby & Lby).
  pose proof (pack_H_ok (l_h c) ltac:(lia)) as Eh. pose proof (pack_H_ok (l_w c) ltac:(lia)) as Ew.
  set (bh := [l_h c mod 256; l_h c / 256]) in *. set (bw := [l_w c mod 256; l_w c / 256]) in *.
  exists cx, cy, c, ((info :: s_zoom s :: bh ++ bw ++ bx ++ by_) ++ compress (concat px)).
  split; [exact Ec|]. split.
  { unfold get_real_data. destruct P as (P1 & P2 & P3). cbn [pic p_rgb p_alpha p_mask] in *.
    assert (S1 : shape_ok (l_h d) (l_w d) 3 (l_rgb d) = true) by (destruct (l_rgb d); [apply has_shape_ok; auto|reflexivity]).
    assert (S2 : shape_ok (l_h d) (l_w d) 1 (l_alpha d) = true) by (destruct (l_alpha d); [apply has_shape_ok; auto|reflexivity]).
    assert (S3 : shape_ok (l_h d) (l_w d) 1 (l_mask d) = true) by (destruct (l_mask d); [apply has_shape_ok; auto|reflexivity]).
    rewrite S1, S2, S3, Ec. cbn [bind]. rewrite Ei. cbn [bind].
    rewrite (pack_B_ok info Hi), (pack_B_ok _ Hz), Eh, Ew, Ebx, Eby. cbn [concat_opt bind app].
    rewrite app_nil_r. reflexivity. }
  intros record Er. unfold write_resource in Er.
  apply bind_some in Er as (hd & Ehd & Er). apply some_inj in Er. subst record.
  set (b := (info :: s_zoom s :: bh ++ bw ++ bx ++ by_) ++ compress (concat px)) in *.
  cbn [concat_opt] in Ehd.
  apply bind_some in Ehd as (i4 & Ei4 & Ehd). apply bind_some in Ehd as (n4 & En4 & Ehd).
  apply bind_some in En4 as (n5 & En5 & En4). apply bind_some in En4 as (n6 & En6 & En4).
  apply some_inj in En6. subst n6. apply some_inj in En4. rewrite app_nil_r in En4. subst n4.
  apply some_inj in Ehd. subst hd.
  assert (Lb : 1 <= len b) by (unfold len, b; cbn [app Datatypes.length]; lia).
  set (g := mk_gsprite (l_w c * l_h c * channels info) (l_w c) (l_h c) info (s_zoom s) (s_xofs s + cx) (s_yofs s + cy)).
  assert (Et : Z.testbit info 0 = (match l_rgb c with Some _ => true | None => false end)
    /\ Z.testbit info 1 = (match l_alpha c with Some _ => true | None => false end)
    /\ Z.testbit info 2 = (match kept_mask c with Some _ => true | None => false end)
    /\ Z.testbit info 3 = false
    /\ channels info = bit (l_rgb c) 3 + bit (l_alpha c) 1 + bit (kept_mask c) 1).
  { unfold info, bit, channels. destruct (l_rgb c), (l_alpha c), (kept_mask c); repeat (split; [reflexivity|]); reflexivity. }
  destruct Et as (T0 & T1 & T2 & T3 & Tc).
  exists (compress (concat px) ++ rest), g.
  exists (chop (Z.to_nat (l_h c)) (Z.to_nat (l_w c)) px).
  assert (Read : read_real_sprite kind (((i4 ++ n5) ++ b) ++ rest)
    = Some (Some (RGraphics id (compress (concat px) ++ rest) g, rest))).
  { unfold read_real_sprite. rewrite <- !app_assoc.
    rewrite (rd_I_pack _ _ _ Ei4). cbn [bind]. assert (id =? 0 = false) as -> by lia.
    rewrite (rd_I_pack _ _ _ En5). cbn [bind].
    set (start := s_zoom s :: bh ++ bw ++ bx ++ by_ ++ (compress (concat px) ++ rest)).
    assert (Eb : b ++ rest = info :: start).
    { unfold b, start. cbn [app]. rewrite <- !app_assoc. reflexivity. }
    rewrite Eb. cbn [rd_B bind]. assert (len b <? 1 = false) as -> by lia.
    assert (Sk : skipn (Z.to_nat (len b - 1)) start = rest).
    { assert (Eb' : skipn (Z.to_nat (len b)) (b ++ rest) = rest).
      { rewrite len_nat, skipn_app, skipn_all, Nat.sub_diag. reflexivity. }
      rewrite Eb in Eb'. replace (Z.to_nat (len b)) with (S (Z.to_nat (len b - 1))) in Eb' by lia. exact Eb'. }
    rewrite Sk.
    assert (Main : (do (zoom, f) <- rd_B start; do (height, f) <- rd_H f; do (width, f) <- rd_H f;
        do (xofs, f) <- rd_h f; do (yofs, f) <- rd_h f;
        let s := mk_gsprite 0 width height info zoom xofs yofs in
        do (decomp, f) <- (if negb (Z.land info 8 =? 0) then rd_I f else Some (width * height * g_bpp s, f));
        Some (Some (RGraphics id f (mk_gsprite decomp width height info zoom xofs yofs), rest)))
      = Some (Some (RGraphics id (compress (concat px) ++ rest) g, rest))).
    { unfold start. cbn [rd_B bind]. rewrite (rd_H_pack _ _ _ Eh). cbn [bind].
      rewrite (rd_H_pack _ _ _ Ew). cbn [bind]. rewrite (rd_h_pack _ _ _ Ebx). cbn [bind].
      rewrite (rd_h_pack _ _ _ Eby). cbn [bind]. cbn zeta. rewrite channels_ok. cbn [g_type].
      change 8 with (2 ^ 3). rewrite land_testbit by lia. rewrite T3. cbn [negb bind]. reflexivity. }
    destruct Hk as [-> | ->]; exact Main. }
  split; [exact Read|]. cbn [g_width g_height g_zoom g_xofs g_yofs g_type g].
  split; [reflexivity|]. split; [reflexivity|]. split; [reflexivity|]. split; [reflexivity|]. split; [reflexivity|].
  split; [exact T0|]. split; [exact T1|]. split.
  { rewrite T2. unfold kept_mask. destruct (l_mask c); [discriminate|]. discriminate. }
  split.
  { rewrite T2. unfold kept_mask. destruct (l_mask c) as [m|] eqn:Em; [|intros _; exact Logic.I].
    destruct ((match l_rgb c, l_alpha c with None, None => true | _, _ => false end) || existsb (existsb nonzero) m) eqn:Q;
      [discriminate|]. intros _. apply orb_false_iff in Q as [Q1 Q2]. split.
    - destruct (l_rgb c); [left; discriminate|]. destruct (l_alpha c); [right; discriminate|]. discriminate.
    - destruct Pc as (_ & _ & Pm). cbn [pic p_mask] in Pm. rewrite Em in Pm. destruct (Pm m eq_refl) as [_ Fm].
      unfold all_zero. apply Forall_forall. intros row Ir. apply Forall_forall. intros p Ipx.
      rewrite Forall_forall in Fm. destruct (Fm row Ir) as [_ Fr]. rewrite Forall_forall in Fr.
      destruct (Fr p Ipx) as [Lp _].
      assert (Nz : nonzero p = false).
      { destruct (nonzero p) eqn:Z; [|reflexivity]. exfalso.
        assert (existsb (existsb nonzero) m = true); [|congruence].
        apply existsb_exists. exists row. split; [exact Ir|]. apply existsb_exists. exists p. split; assumption. }
      destruct p as [|v [|? ?]]; try discriminate Lp. cbn in Nz. rewrite orb_false_r in Nz.
      apply negb_false_iff, Z.eqb_eq in Nz. rewrite Nz. reflexivity. }
  assert (Kbit : 0 <= channels info) by apply channels_range.
  split.
  { unfold decode_sprite. cbn [g_decomp g_type g_width g_height g].
    assert (Ld : len (concat px) = l_w c * l_h c * channels info).
    { rewrite (concat_pixels_len _ _ _ Ip). rewrite <- Tc, Z2Nat.id by lia. reflexivity. }
    rewrite <- Ld. rewrite <- Ex at 1. rewrite Es. rewrite (decode_data_stream bs rest V NO). cbn [bind].
    rewrite Ex. change 8 with (2 ^ 3). rewrite land_testbit by lia. rewrite T3. cbn [negb].
    rewrite channels_ok. change (g_type g) with info.
    replace (l_w c * l_h c * channels info) with (len (concat px)) by exact Ld.
    rewrite Z.eqb_refl. f_equal. f_equal. f_equal.
    rewrite (Z.mul_comm (l_h c)). rewrite Tc. exact (chop_pixels _ _ _ Ip). }
  intros y x r a m Hy Hx Lr La Lm. apply chop_rows_pixel; [exact Hy|exact Hx|exact (proj1 Ip)|].
  apply Np; try assumption. rewrite T2 in Lm. revert Lm. unfold kept_mask.
  destruct (l_mask c) as [l|]; [|intros Q; exact Q].
  destruct ((match l_rgb c, l_alpha c with None, None => true | _, _ => false end) || existsb (existsb nonzero) l);
    intros Q; exact Q.
Qed.

(** The hypothesis on the compressor can be met: storing literals is one. *)
Theorem C46_store_is_compressor : compressor store.
Proof. exact store_compressor. Qed.

(** End to end: whatever the game would show at a screen position with the
    original layers, the decoded record shows there (sprites with alpha, and
    palette sprites). *)
Theorem C46_shown_partial : forall compress s d id kind rest,
  compressor compress ->
  is_picture (l_h d) (l_w d) (pic d) -> 0 < l_w d < 65536 -> 0 < l_h d < 65536 ->
  (l_alpha d <> None \/ (l_rgb d = None /\ l_mask d <> None)) ->
  0 < id < 4294967296 -> (kind id = KGraphics \/ kind id = KDefault) ->
  0 <= s_zoom s < 256 ->
  -32768 <= s_xofs s -> s_xofs s + l_w d <= 32768 -> -32768 <= s_yofs s -> s_yofs s + l_h d <= 32768 ->
  exists b, get_real_data compress s d = Some b
  /\ forall record, write_resource id b = Some record ->
     exists pos g im, read_real_sprite kind (record ++ rest) = Some (Some (RGraphics id pos g, rest))
       /\ decode_sprite g 2 pos = Some (im, rest)
       /\ forall X Y, visible (pic d) X Y (s_xofs s) (s_yofs s) ->
          exists r a m, drawn im (g_xofs g) (g_yofs g) X Y (r ++ a ++ m)
            /\ (match l_rgb d with None => r = [] | Some l => drawn l (s_xofs s) (s_yofs s) X Y r end)
            /\ (match l_alpha d with None => a = [] | Some l => drawn l (s_xofs s) (s_yofs s) X Y a end)
            /\ (match l_mask d with None => m = [] | Some l =>
                  drawn l (s_xofs s) (s_yofs s) X Y m \/ (m = [] /\ drawn l (s_xofs s) (s_yofs s) X Y [0]) end).
Proof.
  intros compress s d id kind rest HC P Hw Hh Ne Hid Hk Hz X1 X2 Y1 Y2.
  assert (Ne' : l_rgb d <> None \/ l_alpha d <> None \/ l_mask d <> None) by (destruct Ne as [N|[_ N]]; auto).
  assert (Nv : l_alpha d <> None \/ l_rgb d = None) by (destruct Ne as [N|[N _]]; auto).
  destruct (C46_round_trip compress s d id kind rest HC P Hw Hh Ne' Hid Hk Hz X1 X2 Y1 Y2)
    as (cx & cy & c & b & Ec & Eb & R).
  exists b. split; [exact Eb|]. intros record Er.
  destruct (R record Er) as (pos & g & im & R1 & Gw & Gh & Gz & Gx & Gy & B0 & B1 & B2 & B3 & Dg & Px).
  exists pos, g, im. split; [exact R1|]. split; [exact Dg|]. intros X Y V.
  pose proof (C45_visible_kept_partial _ _ _ _ _ (s_xofs s) (s_yofs s) X Y P ltac:(lia) ltac:(lia) Nv Ec V) as Sm.
  destruct (crop_picture _ _ _ _ _ P ltac:(lia) ltac:(lia) Ec) as (Pc & Hcx & Hcy & Wc & Hc & _).
  destruct Pc as (Pr & Pa & Pm). cbn [pic p_rgb p_alpha p_mask] in *.
  set (ox := s_xofs s) in *. set (oy := s_yofs s) in *.
  (* the position lies in the cropped image *)
  assert (In_ : 0 <= X - (ox + cx) < l_w c /\ 0 <= Y - (oy + cy) < l_h c).
  { unfold visible in V. cbn [pic p_rgb p_alpha p_mask] in V.
    assert (K : forall sel l k v, In sel [p_rgb; p_alpha; p_mask] -> sel (pic d) = Some l ->
      (forall l', sel (pic c) = Some l' -> is_layer (l_h c) (l_w c) k l') -> drawn l ox oy X Y v ->
      0 <= X - (ox + cx) < l_w c /\ 0 <= Y - (oy + cy) < l_h c).
    { intros sel l k v I Es Fl D. specialize (Sm sel I). rewrite Es in Sm.
      destruct (sel (pic c)) as [l'|]; [|destruct Sm]. apply Sm in D as (D1 & D2 & D3).
      destruct (layer_pixel_range _ _ _ _ _ _ _ (Fl l' eq_refl) D2 D1 D3). lia. }
    destruct (l_alpha d) as [la|] eqn:Ea.
    - destruct V as (v & D & _). apply (K p_alpha la 1%nat v); [right; left; reflexivity|exact Ea|exact Pa|exact D].
    - destruct Nv as [N|N]; [contradiction N; reflexivity|]. rewrite N in V.
      destruct (l_mask d) as [lm|] eqn:Em; [|destruct V].
      destruct V as (v & D & _). apply (K p_mask lm 1%nat v); [right; right; left; reflexivity|exact Em|exact Pm|exact D]. }
  destruct In_ as [Ix Iy].
  assert (Lay : forall sel k, In sel [p_rgb; p_alpha; p_mask] ->
     (forall l', sel (pic c) = Some l' -> is_layer (l_h c) (l_w c) k l') ->
     exists v, layer_pixel (sel (pic c)) (Y - (oy + cy)) (X - (ox + cx)) v
       /\ match sel (pic d) with None => v = [] | Some l => drawn l ox oy X Y v end).
  { intros sel k I Fl. specialize (Sm sel I).
    destruct (sel (pic d)) as [l|], (sel (pic c)) as [l'|]; try (destruct Sm; fail).
    - destruct (layer_pixel_exists _ _ _ _ _ _ (Fl l' eq_refl) Iy Ix) as (v & Pv & _).
      exists v. split; [exact Pv|]. apply Sm. split; [lia|]. split; [lia|exact Pv].
    - exists []. split; reflexivity. }
  destruct (Lay p_rgb 3%nat ltac:(left; reflexivity) Pr) as (r & Lr & Dr).
  destruct (Lay p_alpha 1%nat ltac:(right; left; reflexivity) Pa) as (a & La & Da).
  destruct (Lay p_mask 1%nat ltac:(right; right; left; reflexivity) Pm) as (m & Lm & Dm).
  cbn [pic p_rgb p_alpha p_mask] in *.
  destruct (Z.testbit (g_type g) 2) eqn:T2.
  - exists r, a, m. split; [|split; [exact Dr|split; [exact Da|]]].
    + rewrite Gx, Gy. split; [lia|]. split; [lia|]. apply Px; assumption.
    + destruct (l_mask d); [left; exact Dm|exact Dm].
  - exists r, a, []. split; [|split; [exact Dr|split; [exact Da|]]].
    + rewrite Gx, Gy. split; [lia|]. split; [lia|]. apply Px; try assumption. reflexivity.
    + destruct (l_mask d) as [lm|] eqn:Em; [|reflexivity]. right. split; [reflexivity|].
      specialize (B3 eq_refl). destruct (l_mask c) as [lc|] eqn:Ecm.
      * destruct B3 as [_ Az]. cbn [layer_pixel] in Lm. destruct Lm as (row & A1 & A2).
        unfold all_zero in Az. rewrite Forall_forall in Az. specialize (Az row (nth_error_In _ _ A1)).
        rewrite Forall_forall in Az. specialize (Az m (nth_error_In _ _ A2)). subst m. exact Dm.
      * exfalso. specialize (Sm p_mask ltac:(right; right; left; reflexivity)).
        cbn [pic p_mask] in Sm. rewrite Em, Ecm in Sm. exact Sm.
Qed.

(** An 8bpp + alpha sprite, cropped to 1x2, stored, written and read back. *)
Example C46_example :
  let s := mk_sprite (-5) 7 0 true in
  match get_real_data store s ex_layers with
  | Some b => b = [70; 0; 2; 0; 1; 0; 252; 255; 8; 0; 4; 200; 1; 7; 0]
      /\ match write_resource 9 b with
         | Some record => read_real_sprite (fun _ => KGraphics) (record ++ [1; 2])
             = Some (Some (RGraphics 9 [4; 200; 1; 7; 0; 1; 2] (mk_gsprite 4 1 2 70 0 (-4) 8), [1; 2]))
           /\ decode_sprite (mk_gsprite 4 1 2 70 0 (-4) 8) 2 [4; 200; 1; 7; 0; 1; 2]
             = Some ([[[200; 1]]; [[7; 0]]], [1; 2])
         | None => False
         end
  | None => False
  end.
Proof. cbn zeta. split; [reflexivity|]. split; reflexivity. Qed.

(** The empty sprite is read back as one transparent pixel. *)
Theorem C46_empty : forall id kind rest, 0 < id < 4294967296 ->
  (kind id = KGraphics \/ kind id = KDefault) ->
  exists b record, empty_real_data = Some b /\ write_resource id b = Some record
  /\ exists pos g, read_real_sprite kind (record ++ rest) = Some (Some (RGraphics id pos g, rest))
     /\ g = mk_gsprite 1 1 1 4 0 0 0 /\ decode_sprite g 2 pos = Some ([[[0]]], rest).
Proof.
  intros id kind rest Hid Hk.
  exists [4; 0; 1; 0; 1; 0; 0; 0; 0; 0; 1; 0]. eexists. split; [reflexivity|].
  pose proof (pack_I_ok id ltac:(lia)) as Ei. unfold write_resource. rewrite Ei.
  cbn [concat_opt bind]. split; [reflexivity|].
  exists (1 :: 0 :: rest), (mk_gsprite 1 1 1 4 0 0 0). split; [|split; reflexivity].
  unfold read_real_sprite. rewrite <- !app_assoc. rewrite (rd_I_pack _ _ _ Ei). cbn [bind].
  assert (id =? 0 = false) as -> by lia.
  destruct Hk as [-> | ->]; reflexivity.
Qed.

(** ---- C57: sounds ---- *)

(** A sound record is read back with its name and starts at its data, and the
    record ends where it should ... *)
Theorem C57_sound_partial : forall id kind name data record rest b,
  0 < id < 4294967296 -> kind id = KSound ->
  sound_real_data name data = Some b -> write_resource id b = Some record ->
  exists size, read_real_sprite kind (record ++ rest) = Some (Some (RSound id (data ++ rest) size name, rest)).
Proof.
  intros id kind name data record rest b Hid Hk Eb Er.
  unfold sound_real_data in Eb. apply bind_some in Eb as (hd & Ehd & Eb). apply some_inj in Eb.
  cbn [concat_opt] in Ehd. change (pack_B 255) with (Some [255]) in Ehd. cbn [bind] in Ehd.
  destruct (pack_B (len name)) as [l1|] eqn:El; [|discriminate]. cbn [bind] in Ehd. apply some_inj in Ehd.
  apply pack_B_inv in El as [Hl ->]. cbn [app] in Ehd. subst hd. cbn [app] in Eb.
  unfold write_resource in Er. apply bind_some in Er as (h2 & Eh2 & Er). apply some_inj in Er. subst record.
  cbn [concat_opt] in Eh2. apply bind_some in Eh2 as (i4 & Ei4 & Eh2). apply bind_some in Eh2 as (n4 & En4 & Eh2).
  apply bind_some in En4 as (n5 & En5 & En4). apply bind_some in En4 as (n6 & En6 & En4).
  apply some_inj in En6. subst n6. apply some_inj in En4. rewrite app_nil_r in En4. subst n4.
  apply some_inj in Eh2. subst h2.
  unfold read_real_sprite. rewrite <- !app_assoc. rewrite (rd_I_pack _ _ _ Ei4). cbn [bind].
  assert (id =? 0 = false) as -> by lia. rewrite (rd_I_pack _ _ _ En5). cbn [bind].
  set (start := 255 :: len name :: name ++ 0 :: data ++ rest).
  assert (Es : b ++ rest = 255 :: start) by (subst b start; cbn [app]; rewrite <- app_assoc; reflexivity).
  rewrite Es. cbn [rd_B bind].
  assert (Lb : len b = 4 + len name + len data).
  { subst b. unfold len. cbn [Datatypes.length]. rewrite app_length. cbn [Datatypes.length]. lia. }
  pose proof (len_nonneg data). assert (len b <? 1 = false) as -> by lia. rewrite Hk.
  assert (Sk : skipn (Z.to_nat (len b - 1)) start = rest).
  { assert (Eb' : skipn (Z.to_nat (len b)) (b ++ rest) = rest).
    { rewrite len_nat, skipn_app, skipn_all, Nat.sub_diag. reflexivity. }
    rewrite Es in Eb'. replace (Z.to_nat (len b)) with (S (Z.to_nat (len b - 1))) in Eb' by lia. exact Eb'. }
  rewrite Sk. change (slice 2 start) with ([255; len name], name ++ 0 :: data ++ rest).
  eexists.
  cbv beta iota. match goal with |- context [at_ ?l ?n] => change (at_ l n) with (Some (len name)) end.
  unfold bind at 1.
  assert (En : name ++ 0 :: data ++ rest = (name ++ [0]) ++ data ++ rest) by (rewrite <- app_assoc; reflexivity).
  rewrite En. replace (Z.to_nat (len name + 1)) with (Datatypes.length (name ++ [0]))
    by (rewrite app_length; cbn [Datatypes.length]; unfold len; lia).
  rewrite slice_app. do 3 f_equal. f_equal.
  unfold py_slice, py_index, len. cbn [Z.ltb Z.compare]. rewrite app_length. cbn [Datatypes.length].
  rewrite Z.min_l by lia. replace (Z.to_nat (Z.max 0 (-1 + Z.of_nat (Datatypes.length name + 1)) - 0)) with (Datatypes.length name) by lia.
  cbn [Z.to_nat skipn]. rewrite firstn_app, firstn_all, Nat.sub_diag. cbn [firstn]. apply app_nil_r.
Qed.
(** ... but the size it is given is always one byte too many: the extracted
    sound file ends with the first byte of the next record. *)
Theorem C57_sound_size_refuted : forall id kind name data record rest b,
  0 < id < 4294967296 -> kind id = KSound ->
  sound_real_data name data = Some b -> write_resource id b = Some record ->
  forall i pos size n after, read_real_sprite kind (record ++ rest) = Some (Some (RSound i pos size n, after)) ->
  size = Z.of_nat (Datatypes.length data) + 1 /\ firstn (Z.to_nat size) pos = data ++ firstn 1 rest.
Proof.
  intros id kind name data record rest b Hid Hk Eb Er i pos size n after R.
  destruct (C57_sound_partial id kind name data record rest b Hid Hk Eb Er) as (size' & R').
  rewrite R' in R. apply some_inj in R. apply some_inj in R. apply pair_inj in R as [R _].
  injection R as Ri Rp Rs Rn. subst i pos size n. clear after.
  assert (Es : size' = Z.of_nat (Datatypes.length data) + 1).
  { revert R'. unfold sound_real_data in Eb. apply bind_some in Eb as (hd & Ehd & Eb). apply some_inj in Eb.
    cbn [concat_opt] in Ehd. change (pack_B 255) with (Some [255]) in Ehd. cbn [bind] in Ehd.
    destruct (pack_B (len name)) as [l1|] eqn:El; [|discriminate]. cbn [bind] in Ehd. apply some_inj in Ehd.
    apply pack_B_inv in El as [Hl ->]. cbn [app] in Ehd. subst hd. cbn [app] in Eb.
    unfold write_resource in Er. apply bind_some in Er as (h2 & Eh2 & Er). apply some_inj in Er. subst record.
    cbn [concat_opt] in Eh2. apply bind_some in Eh2 as (i4 & Ei4 & Eh2). apply bind_some in Eh2 as (n4 & En4 & Eh2).
    apply bind_some in En4 as (n5 & En5 & En4). apply bind_some in En4 as (n6 & En6 & En4).
    apply some_inj in En6. subst n6. apply some_inj in En4. rewrite app_nil_r in En4. subst n4.
    apply some_inj in Eh2. subst h2.
    unfold read_real_sprite. rewrite <- !app_assoc. rewrite (rd_I_pack _ _ _ Ei4). cbn [bind].
    assert (id =? 0 = false) as -> by lia. rewrite (rd_I_pack _ _ _ En5). cbn [bind].
    assert (Lb : len b = 4 + len name + len data).
    { subst b. unfold len. cbn [Datatypes.length]. rewrite app_length. cbn [Datatypes.length]. lia. }
    pose proof (len_nonneg data). assert (Hb : len b <? 1 = false) by lia.
    subst b. cbn [app rd_B bind]. rewrite Hb, Hk.
    match goal with |- context [slice 2 (255 :: ?a :: ?r)] => change (slice 2 (255 :: a :: r)) with ([255; a], r) end.
    cbv beta iota. match goal with |- context [at_ ?l ?n] => change (at_ l n) with (Some (len name)) end. unfold bind at 1.
    match goal with |- context [slice ?n ?l] => destruct (slice n l) as [nm f] end.
    intros R. apply some_inj in R. apply some_inj in R. apply pair_inj in R as [R _].
    
    pose proof (f_equal (fun r => match r with RSound _ _ z _ => z | _ => 0 end) R) as Rs. cbv beta iota in Rs.
    rewrite <- Rs. rewrite Lb. unfold len. lia. }
  split; [exact Es|]. rewrite Es, Z2Nat.inj_add by lia. rewrite Nat2Z.id.
  rewrite firstn_app. rewrite firstn_all2 by lia. f_equal. f_equal. lia.
Qed.
(** Every sound whose file name is shorter than 256 bytes and whose record
    length fits 32 bits can be written. *)
Theorem C57_written : forall id name data,
  0 < id < 4294967296 -> Z.of_nat (Datatypes.length name) < 256 ->
  Z.of_nat (Datatypes.length name) + Z.of_nat (Datatypes.length data) + 4 < 4294967296 ->
  exists b record, sound_real_data name data = Some b /\ write_resource id b = Some record.
Proof.
  intros id name data Hid Hn Hd. unfold sound_real_data. cbn [concat_opt].
  change (pack_B 255) with (Some [255]). rewrite (pack_B_ok (len name)) by (unfold len; lia).
  cbn [bind app]. eexists. eexists. split; [reflexivity|]. unfold write_resource. cbn [concat_opt].
  rewrite (pack_I_ok id) by lia. cbn [bind].
  match goal with |- context [pack_I ?n] => rewrite (pack_I_ok n) end; [reflexivity|].
  unfold len. cbn [Datatypes.length]. rewrite app_length. cbn [Datatypes.length]. lia.
Qed.
Example C57_example :
  match sound_real_data [104; 46; 119] [1; 2; 3] with
  | Some b => match write_resource 5 b with
    | Some record => read_real_sprite (fun _ => KSound) (record ++ [6; 0; 0; 0])
        = Some (Some (RSound 5 [1; 2; 3; 6; 0; 0; 0] 4 [104; 46; 119], [6; 0; 0; 0]))
    | None => False end
  | None => False end.
Proof. reflexivity. Qed.

(** ---- C58: the shortcut for RGBA images ---- *)

(** If the RGB and alpha layers are an ordinary box of the base image (its own
    strides, four channels, contiguous), the restored array has, at every
    pixel of the box, the three RGB bytes followed by the alpha byte. *)
Theorem C58_restore_partial : forall mem addr H W y0 x0 h w bid,
  let base := mk_view bid addr (H, W, 4) (W * 4, 4, 1) in
  let rgb := mk_view bid (addr + y0 * (W * 4) + x0 * 4) (h, w, 3) (W * 4, 4, 1) in
  let alpha := mk_view bid (addr + y0 * (W * 4) + x0 * 4 + 3) (h, w, 1) (W * 4, 4, 0) in
  0 <= y0 -> 0 <= x0 -> 0 < h -> 0 < w -> y0 + h <= H -> x0 + w <= W ->
  exists res, restore_rgba base rgb alpha = Some res
  /\ v_shape res = (h, w, 4)
  /\ forall i j, 0 <= i < h -> 0 <= j < w ->
     (forall k, 0 <= k < 3 -> item mem res i j k = item mem rgb i j k)
     /\ item mem res i j 3 = item mem alpha i j 0.
Proof.
  intros mem addr H W y0 x0 h w bid base rgb alpha Hy Hx Hh Hw By Bx.
  unfold restore_rgba, base, rgb, alpha. cbn [v_base v_addr v_shape v_strides].
  rewrite Z.eqb_refl. cbn [negb]. rewrite Z.eqb_refl. cbn [negb].
  rewrite !Z.eqb_refl. cbn [andb negb orb]. rewrite orb_false_r.
  match goal with |- context [contig ?v] => replace (contig v) with false by reflexivity end.
  destruct ((H =? h) && (W =? w)) eqn:Q.
  - apply andb_true_iff in Q as [Q1 Q2]. apply Z.eqb_eq in Q1, Q2.
    assert (y0 = 0) by lia. assert (x0 = 0) by lia. subst. eexists. split; [reflexivity|].
    split; [reflexivity|]. intros i j Hi Hj. unfold item, rgb, alpha. cbn [v_strides v_addr].
    split; [intros k Hk; f_equal; lia|f_equal; lia].
  - set (flat := addr + y0 * (W * 4) + x0 * 4 - addr).
    assert (Ex : flat / (W * 4) = y0).
    { unfold flat. replace (addr + y0 * (W * 4) + x0 * 4 - addr) with (x0 * 4 + y0 * (W * 4)) by lia.
      rewrite Z.div_add by lia. rewrite (Z.div_small (x0 * 4)) by lia. lia. }
    assert (Em : flat mod (W * 4) = x0 * 4).
    { unfold flat. replace (addr + y0 * (W * 4) + x0 * 4 - addr) with (x0 * 4 + y0 * (W * 4)) by lia.
      rewrite Z.mod_add by lia. apply Z.mod_small. lia. }
    assert (E4 : flat mod 4 = 0).
    { unfold flat. replace (addr + y0 * (W * 4) + x0 * 4 - addr) with ((y0 * W + x0) * 4) by lia.
      apply Z.mod_mul. lia. }
    rewrite Ex, Em, E4. rewrite Z.div_mul by lia. eexists. split; [reflexivity|].
    cbn [v_shape]. split.
    + repeat f_equal; lia.
    + intros i j Hi Hj. unfold item, rgb, alpha. cbn [v_strides v_addr].
      change (0 / 1) with 0. split; [intros k Hk; f_equal; lia|f_equal; lia].
Qed.
(** But the check does not notice views with other strides: a mirrored image
    (both layers flipped left-right, as an overridden get_data_layers may
    return) is silently written unmirrored. *)
Theorem C58_mirrored_refuted : exists mem base rgb alpha res,
  restore_rgba base rgb alpha = Some res
  /\ v_base rgb = v_base base /\ v_base alpha = v_base base
  /\ (forall i j k, 0 <= i < 1 -> 0 <= j < 2 -> 0 <= k < 3 -> item mem rgb i j k = item mem base i (1 - j) k)
  /\ (forall i j, 0 <= i < 1 -> 0 <= j < 2 -> item mem alpha i j 0 = item mem base i (1 - j) 3)
  /\ item mem res 0 0 0 <> item mem rgb 0 0 0.
Proof.
  exists (fun a => a), (mk_view 0 0 (1, 2, 4) (8, 4, 1)),
    (mk_view 0 4 (1, 2, 3) (8, -4, 1)), (mk_view 0 7 (1, 2, 1) (8, -4, 0)), (mk_view 0 0 (1, 2, 4) (8, 4, 1)).
  split; [reflexivity|]. split; [reflexivity|]. split; [reflexivity|]. split; [|split].
  - intros i j k Hi Hj Hk. unfold item. cbn [v_strides v_addr]. lia.
  - intros i j Hi Hj. unfold item. cbn [v_strides v_addr]. lia.
  - unfold item. cbn [v_strides v_addr]. lia.
Qed.
Example C58_example :
  restore_rgba (mk_view 1 100 (4, 5, 4) (20, 4, 1)) (mk_view 1 128 (2, 3, 3) (20, 4, 1)) (mk_view 1 131 (2, 3, 1) (20, 4, 0))
  = Some (mk_view 1 128 (2, 3, 4) (20, 4, 1)).
Proof. reflexivity. Qed.

Print Assumptions C45_nothing_moves.
Print Assumptions C45_visible_kept_partial.
Print Assumptions C45_rgb_kept_partial.
Print Assumptions C45_opaque_black_refuted.
Print Assumptions C45_tight.
Print Assumptions C46_round_trip.
Print Assumptions C46_shown_partial.
Print Assumptions C46_store_is_compressor.
Print Assumptions C46_empty.
Print Assumptions C57_sound_partial.
Print Assumptions C57_sound_size_refuted.
Print Assumptions C58_restore_partial.
Print Assumptions C58_mirrored_refuted.
Print Assumptions C57_written.
