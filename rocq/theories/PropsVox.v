(** C65: what the voxel renderer draws. *)
From Verif Require Import Base BaseFacts VoxModel SpecVox VoxProofs VoxProofs2 VoxProofs3 VoxProofs4 VoxProofs5.
From Coq Require Import ZArith List Bool Lia Permutation.
Import ListNotations.
Open Scope Z_scope.

(** ** Reading *)

(** Every file the editor writes is read back: its voxels in file order, its
    palette; chunks of other kinds anywhere change nothing, and reading again
    over an old state gives the same. *)
Theorem C65_reads : forall head m a b c d sx sy sz v q last r,
  file_ok head m a b c d sx sy sz v q -> narrow sx v ->
  vox_read (vox_file head m a b c d sx sy sz v q last) r =
  Some (mk_reader (Some (sy, sx, sz)) (map (game_vox sx sy) v) (Some q)).
Proof.
  intros head m a b c d sx sy sz v q last r (LH & M & A & B & C & D & SX & SY & SZ & NV & LV & LQ & IV) N.
  rewrite read_file; try assumption.
  - rewrite (place_game sx sy v N). reflexivity.
  - eapply Forall_impl; [|exact IV]. intros [[[x y] z] i]. cbn. lia.
Qed.

Lemma game_reader_ok sx sy sz v q : length q = 255%nat -> Forall (fun p : Z * Z * Z * Z => let '(x, y, z, i) := p in 0 < i < 256) v ->
  reader_ok (mk_reader (Some (sy, sx, sz)) (map (game_vox sx sy) v) (Some q)).
Proof.
  intros LQ IV. split; [|exists q; split; [reflexivity|exact LQ]]. cbn [r_voxels].
  apply Forall_forall. intros u U. apply in_map_iff in U as ([[[x y] z] i] & <- & U).
  rewrite Forall_forall in IV. specialize (IV _ U). cbn in *. lia.
Qed.

(** the picture behind the three zoom levels *)
Lemma shows_of k r p : lib_ok k -> reader_ok r -> house_load k r = Some p ->
  exists q m xmin xmax ymin ymax, r_rgba r = Some q /\ Scene k q (r_voxels r) m xmin xmax ymin ymax /\
    p_w p = xmax - xmin + 2 /\ p_h p = ymax - ymin + 3 /\
    forall y x, Shows k m (y + ymin) (x + xmin) (house_palette k (p_px p y x)).
Proof.
  intros K R E. destruct (house_pixels k r p E) as (cc & xmin & xmax & ymin & ymax & EC & X1 & X2 & Y1 & Y2 & W & H & P).
  destruct R as [IV (q & Q & LQ)]. exists q, cc, xmin, xmax, ymin, ymax. split; [exact Q|].
  split; [split; [exact (colours_meaning k r q Q _ _ IV EC)|split; [exact X1|split; [exact X2|split; [exact Y1|exact Y2]]]]|].
  split; [exact W|]. split; [exact H|]. intros y x.
  destruct (P y x) as [[E0 N] | (i & v & c & f & F & E1)].
  - left. rewrite E0, palette_zero. split; [reflexivity|exact N].
  - right. exists i, v, c, f. split; [exact F|]. rewrite E1. apply palette_face.
    exact (colours_safe k r cc K EC v c (nth_error_In _ _ (proj1 (proj1 F)))).
Qed.

(** ** The three zoom levels *)

(** The sprite of a file: one pixel per projected pixel, every second row at
    normal zoom, doubled columns at 2x; at 4x the odd rows are the projected
    rows. *)
Theorem C65_house : forall k head m0 a b c d sx sy sz v q last,
  lib_ok k -> file_ok head m0 a b c d sx sy sz v q -> narrow sx v ->
  exists m xmin xmax ymin ymax, Scene k q (map (game_vox sx sy) v) m xmin xmax ymin ymax /\
  let w := xmax - xmin + 2 in
  let h := ymax - ymin + 3 in
  let file := vox_file head m0 a b c d sx sy sz v q last in
  (exists s, vox_house k file ZOOM_NORMAL = Some s /\ p_w s = w /\ p_h s = (h + 1) / 2 /\
     forall y x, 0 <= y < p_h s -> 0 <= x < p_w s -> Shows k m (2 * y + ymin) (x + xmin) (p_px s y x)) /\
  (exists s, vox_house k file ZOOM_2X = Some s /\ p_w s = 2 * w /\ p_h s = h /\
     forall y x, 0 <= y < p_h s -> 0 <= x < p_w s -> Shows k m (y + ymin) (x / 2 + xmin) (p_px s y x)) /\
  (exists s, vox_house k file ZOOM_4X = Some s /\ p_w s = 4 * w /\ p_h s = 2 * h + 1 /\
     forall y x, 0 <= y < h -> 0 <= x < p_w s -> Shows k m (y + ymin) (x / 4 + xmin) (p_px s (2 * y + 1) x)).
Proof.
  intros k head m0 a b c d sx sy sz v q last K F N.
  pose proof F as (LH & M & A & B & C & D & SX & SY & SZ & NV & LV & LQ & IV).
  set (r := mk_reader (Some (sy, sx, sz)) (map (game_vox sx sy) v) (Some q)).
  assert (R : reader_ok r) by (apply game_reader_ok; assumption).
  destruct (house_total k r R) as [p E]. { cbn [r r_voxels]. destruct v; [congruence|discriminate]. }
  destruct (shows_of k r p K R E) as (q' & m & xmin & xmax & ymin & ymax & Q & S & W & H & P).
  cbn [r r_rgba] in Q. apply some_inj in Q. subst q'. cbn [r r_voxels] in S.
  assert (V : valid p) by exact (house_valid k r p K E).
  exists m, xmin, xmax, ymin, ymax. split; [exact S|]. cbv zeta.
  assert (RD : forall zoom, vox_house k (vox_file head m0 a b c d sx sy sz v q last) zoom = house_sprite k p zoom).
  { intros zoom. unfold vox_house. rewrite (C65_reads _ _ _ _ _ _ _ _ _ _ _ last reader0 F N). cbn [bind]. fold r. rewrite E. reflexivity. }
  split; [|split].
  - eexists. split; [rewrite RD; reflexivity|]. cbn [p_w p_h p_px]. split; [exact W|]. split; [rewrite H; reflexivity|].
    intros y x _ _. apply P.
  - eexists. split; [rewrite RD; reflexivity|]. cbn [p_w p_h p_px]. split; [rewrite W; reflexivity|]. split; [exact H|].
    intros y x _ _. apply P.
  - eexists. split; [rewrite RD; reflexivity|]. cbn [p_w p_h p_px]. split; [rewrite W; reflexivity|]. split; [rewrite H; reflexivity|].
    intros y x Hy Hx. rewrite blow_odd by (assumption || lia). apply P.
Qed.

(** A pixel some voxel covers is opaque, in a colour that is safe to use. *)
Theorem C65_opaque : forall k q l m xmin xmax ymin ymax Y X value,
  lib_ok k -> Scene k q l m xmin xmax ymin ymax -> Shows k m Y X value ->
  (value = 0 <-> (forall i v c f, ~ Hit m Y X i v c f)) /\ (value = 0 \/ in_safe value).
Proof.
  intros k q l m xmin xmax ymin ymax Y X value K (S & _) [[-> N] | (i & v & c & f & F & ->)].
  - split; [split; [intros _; exact N|reflexivity]|left; reflexivity].
  - assert (SC : in_safe c).
    { pose proof (nth_error_In _ _ (proj1 (proj1 F))) as I. clear F.
      induction S as [|u p l m [_ (r & g & b & a & _ & E)] S IH]; [destruct I|].
      destruct I as [->|I]; [cbn [snd] in E; rewrite E; apply K|exact (IH I)]. }
    pose proof (shade_safe k f c K SC) as SS. split; [|right; exact SS].
    split; [intros E; apply safe_range in SS; lia|]. intros N. exfalso. exact (N i v c f (proj1 F)).
Qed.

(** Between the rows of the 4x sprite: the row between two opaque pixels of
    one column takes the colour of the upper or of the lower one -- the
    triangular patterns always meet, so there are no holes. *)
Theorem C65_no_holes : forall k head m0 a b c d sx sy sz v q last s s2 y X,
  lib_ok k -> file_ok head m0 a b c d sx sy sz v q -> narrow sx v ->
  vox_house k (vox_file head m0 a b c d sx sy sz v q last) ZOOM_4X = Some s ->
  vox_house k (vox_file head m0 a b c d sx sy sz v q last) ZOOM_2X = Some s2 ->
  0 < y < p_h s2 -> 0 <= X < p_w s ->
  p_px s2 (y - 1) (X / 2) <> 0 -> p_px s2 y (X / 2) <> 0 ->
  p_px s (2 * y) X = p_px s2 (y - 1) (X / 2) \/ p_px s (2 * y) X = p_px s2 y (X / 2).
Proof.
  intros k head m0 a b c d sx sy sz v q last s s2 y X K F N E4 E2 Hy HX NA NB.
  unfold vox_house in E4, E2. rewrite (C65_reads _ _ _ _ _ _ _ _ _ _ _ last reader0 F N) in E4, E2. cbn [bind] in E4, E2.
  destruct (house_load k _) as [p|] eqn:E; [|discriminate E4]. cbn [bind] in E4, E2.
  change (house_sprite k p ZOOM_4X) with (Some (mk_picture (2 * p_h p + 1) (4 * p_w p) (blow_up k p))) in E4.
  change (house_sprite k p ZOOM_2X) with (Some (mk_picture (p_h p) (2 * p_w p) (fun y x => house_palette k (p_px p y (x / 2))))) in E2.
  apply some_inj in E4, E2. subst s s2. cbn [p_w p_h p_px] in *.
  assert (D4 : X / 2 / 2 = X / 4) by (Z.to_euclidean_division_equations; lia).
  rewrite D4 in *.
  assert (NZ : forall y, house_palette k (p_px p y (X / 4)) <> 0 -> p_px p y (X / 4) <> 0).
  { intros y0 H0 H1. rewrite H1, palette_zero in H0. congruence. }
  destruct (no_gap k p y X) as [-> | ->]; try assumption; [exact (house_valid k _ p K E)|exact (NZ _ NA)|exact (NZ _ NB)| |right; reflexivity|left; reflexivity].
  replace (p_px p y (X / 4)) with (p_px p (y - 1 + 1) (X / 4)) by (f_equal; lia).
  apply (house_stacked k _ p (y - 1) (X / 4) K E (NZ _ NA)). replace (y - 1 + 1) with y by lia. exact (NZ _ NB).
Qed.

(** Nothing is invented: a pixel of an even row is empty or has the colour of
    the projected pixel above or below it. *)
Theorem C65_only_neighbours : forall k head m0 a b c d sx sy sz v q last s s2 y X,
  lib_ok k -> file_ok head m0 a b c d sx sy sz v q -> narrow sx v ->
  vox_house k (vox_file head m0 a b c d sx sy sz v q last) ZOOM_4X = Some s ->
  vox_house k (vox_file head m0 a b c d sx sy sz v q last) ZOOM_2X = Some s2 ->
  0 <= 2 * y < p_h s -> 0 <= X < p_w s ->
  p_px s (2 * y) X = 0 \/
  (0 <= y - 1 < p_h s2 /\ p_px s (2 * y) X = p_px s2 (y - 1) (X / 2)) \/
  (0 <= y < p_h s2 /\ p_px s (2 * y) X = p_px s2 y (X / 2)).
Proof.
  intros k head m0 a b c d sx sy sz v q last s s2 y X K F N E4 E2 Hy HX.
  unfold vox_house in E4, E2. rewrite (C65_reads _ _ _ _ _ _ _ _ _ _ _ last reader0 F N) in E4, E2. cbn [bind] in E4, E2.
  destruct (house_load k _) as [p|] eqn:E; [|discriminate E4]. cbn [bind] in E4, E2.
  change (house_sprite k p ZOOM_4X) with (Some (mk_picture (2 * p_h p + 1) (4 * p_w p) (blow_up k p))) in E4.
  change (house_sprite k p ZOOM_2X) with (Some (mk_picture (p_h p) (2 * p_w p) (fun y x => house_palette k (p_px p y (x / 2))))) in E2.
  apply some_inj in E4, E2. subst s s2. cbn [p_w p_h p_px] in *.
  assert (D4 : X / 2 / 2 = X / 4) by (Z.to_euclidean_division_equations; lia).
  rewrite D4 in *. rewrite blow_even by (try assumption; try lia; exact (house_valid k _ p K E)).
  unfold top_part, bot_part.
  destruct ((0 <=? y) && (y <? p_h p) && pat_top (side_of p y (X / 4)) (X mod 4)) eqn:T.
  - right. right. apply andb_true_iff in T as [T _]. apply andb_true_iff in T as [T1 T2].
    apply Z.leb_le in T1. apply Z.ltb_lt in T2. split; [lia|reflexivity].
  - destruct ((0 <=? y - 1) && (y - 1 <? p_h p) && pat_bot (side_of p (y - 1) (X / 4)) (X mod 4)) eqn:B.
    + right. left. apply andb_true_iff in B as [B _]. apply andb_true_iff in B as [B1 B2].
      apply Z.leb_le in B1. apply Z.ltb_lt in B2. split; [lia|reflexivity].
    + left. reflexivity.
Qed.

(** ** Visibility *)

(** If depth grows along the three axes, a voxel is never drawn over one that
    is at least as far along all of them. *)
Theorem C65_hidden : forall k m Y X i v c f j v' c' f',
  (forall a b, vx a <= vx b -> vy a <= vy b -> vz a <= vz b ->
     vx a < vx b \/ vy a < vy b \/ vz a < vz b -> k_depth k a < k_depth k b) ->
  Hit m Y X j v' c' f' ->
  vx v <= vx v' -> vy v <= vy v' -> vz v <= vz v' -> vx v < vx v' \/ vy v < vy v' \/ vz v < vz v' ->
  ~ Front (k_depth k) m Y X i v c f.
Proof.
  intros k m Y X i v c f j v' c' f' M H A B C D [_ F].
  specialize (M v v' A B C D). destruct (F j v' c' f' H) as [L|[L _]]; lia.
Qed.

(** The depth order of the camera (any function of x + y and z that tells
    different pairs apart, as (x+y)*sqrt(6)/4 + z/2 does) never ties between
    two voxels at one pixel: the picture does not depend on the order of the
    voxels in the file. *)
Theorem C65_order : forall k r r' p p',
  lib_ok k -> reader_ok r -> reader_ok r' -> r_rgba r = r_rgba r' ->
  (forall v, In v (r_voxels r) <-> In v (r_voxels r')) ->
  (forall v v', In v (r_voxels r) -> In v' (r_voxels r) -> k_depth k v = k_depth k v' ->
     vx v + vy v = vx v' + vy v' /\ vz v = vz v') ->
  (forall v v', In v (r_voxels r) -> In v' (r_voxels r) ->
     vx v = vx v' -> vy v = vy v' -> vz v = vz v' -> vi v = vi v') ->
  house_load k r = Some p -> house_load k r' = Some p' ->
  p_w p = p_w p' /\ p_h p = p_h p' /\
  forall y x, house_palette k (p_px p y x) = house_palette k (p_px p' y x).
Proof.
  intros k r r' p p' K R R' Q S D U E E'.
  destruct (house_pixels k r p E) as (cc & xmin & xmax & ymin & ymax & EC & X1 & X2 & Y1 & Y2 & W & H & P).
  destruct (house_pixels k r' p' E') as (cc' & xmin' & xmax' & ymin' & ymax' & EC' & X1' & X2' & Y1' & Y2' & W' & H' & P').
  assert (LE : forall f a a', Least f (r_voxels r) a -> Least f (r_voxels r') a' -> a = a').
  { intros f a a' [(u & I & <-) A] [(u' & I' & <-) A']. apply S in I'. pose proof (A u' I'). apply S in I. pose proof (A' u I). lia. }
  assert (GE : forall f a a', Greatest f (r_voxels r) a -> Greatest f (r_voxels r') a' -> a = a').
  { intros f a a' [(u & I & <-) A] [(u' & I' & <-) A']. apply S in I'. pose proof (A u' I'). apply S in I. pose proof (A' u I). lia. }
  rewrite <- (LE _ _ _ X1 X1') in *. rewrite <- (LE _ _ _ Y1 Y1') in *.
  rewrite <- (GE _ _ _ X2 X2') in *. rewrite <- (GE _ _ _ Y2 Y2') in *.
  split; [congruence|]. split; [congruence|].
  assert (CC : forall r l m, colours_of k r l = Some m -> forall u e, In (u, e) m <-> In u l /\ ttd_palette k r (vi u) = Some e).
  { clear. intros r. induction l as [|u l IH]; intros m E v e; cbn [colours_of] in E.
    - apply some_inj in E. subst. split; [intros []|intros [[] _]].
    - destruct (ttd_palette k r (vi u)) as [c|] eqn:T; [|discriminate]. cbn [bind] in E.
      destruct (colours_of k r l) as [m'|]; [|discriminate]. cbn [bind] in E. apply some_inj in E. subst m.
      cbn [In]. rewrite (IH m' eq_refl v e). split.
      + intros [I|[I J]]; [apply pair_inj in I as [<- <-]; auto|auto].
      + intros [[<-|I] J]; [left; congruence|right; auto]. }
  assert (TT : forall i, ttd_palette k r i = ttd_palette k r' i) by (intros i; unfold ttd_palette; rewrite Q; reflexivity).
  assert (SC : forall u e, In (u, e) cc <-> In (u, e) cc').
  { intros u e. rewrite (CC r _ _ EC), (CC r' _ _ EC'), S, TT. reflexivity. }
  intros y x. destruct (P y x) as [[E0 N] | (i & v & c & f & F & E1)];
    destruct (P' y x) as [[E0' N'] | (i' & v' & c' & f' & F' & E1')].
  - congruence.
  - exfalso. destruct F' as [(NE & C1 & FA) _]. apply nth_error_In in NE. apply SC in NE. apply In_nth_error in NE as (j & NE).
    exact (N j v' c' f' (conj NE (conj C1 FA))).
  - exfalso. destruct F as [(NE & C1 & FA) _]. apply nth_error_In in NE. apply SC in NE. apply In_nth_error in NE as (j & NE).
    exact (N' j v c f (conj NE (conj C1 FA))).
  - destruct (front_same (k_depth k) cc cc' (y + ymin) (x + xmin) i v c f i' v' c' f' SC) as (-> & -> & ->); try assumption; [|congruence].
    intros u e u' e' g g' I I' _ _ G G' DD. apply (CC r _ _ EC) in I as [I T]. apply (CC r _ _ EC) in I' as [I' T'].
    destruct (D u u' I I' DD) as [D1 D2]. destruct (same_place u u' _ _ _ _ G G' D1 D2) as (A1 & A2 & A3).
    pose proof (U u u' I I' A1 A2 A3) as A4. destruct u as [u1 u2 u3 u4], u' as [w1 w2 w3 w4]. cbn [vx vy vz vi] in *. subst.
    split; [reflexivity|congruence].
Qed.

(** ** Failures *)

(** An empty model, a file without palette, voxels before the size, a voxel
    without colour and an
    unsupported zoom level are refused. *)
Theorem C65_refuses : forall k,
  (forall r, r_voxels r = [] -> house_load k r = None) /\
  (forall r, r_voxels r <> [] -> r_rgba r = None -> house_load k r = None) /\
  (forall d r, r_size r = None -> read_xyzi d r = None) /\
  (forall v x y z rest r, 0 <= len v < 2 ^ 32 -> In (x, y, z, 0) v -> read_xyzi (xyzi_content v ++ rest) r = None) /\
  (forall p zoom, zoom <> 0 -> zoom <> 1 -> zoom <> 2 -> house_sprite k p zoom = None).
Proof.
  intros k. split; [|split; [|split; [|split]]].
  - intros r E. unfold house_load. rewrite E. reflexivity.
  - intros r NE Q. unfold house_load. destruct (r_voxels r) as [|v l]; [congruence|]. cbn [colours_of].
    unfold ttd_palette. rewrite Q. reflexivity.
  - intros d r S. unfold read_xyzi. destruct (rd_I d) as [[n d']|]; [|reflexivity]. cbn [bind].
    destruct (read_quads (Z.to_nat n) d'); [|reflexivity]. cbn [bind]. rewrite S. reflexivity.
  - intros v x y z rest r L I. unfold read_xyzi, xyzi_content. rewrite <- app_assoc, rd_le4 by exact L. cbn [bind].
    unfold len. rewrite Nat2Z.id, read_quads_ok. cbn [bind]. destruct (r_size r) as [[[s0 s1] s2]|]; [|reflexivity]. cbn [bind].
    match goal with |- (if ?b then _ else _) = None => replace b with false; [reflexivity|] end.
    symmetry. apply not_true_is_false. intros E. rewrite forallb_forall in E.
    specialize (E _ (in_map (place s0 s1) _ _ I)). cbn in E. discriminate E.
  - intros p zoom A B C. unfold house_sprite, ZOOM_NORMAL, ZOOM_2X, ZOOM_4X.
    rewrite (proj2 (Z.eqb_neq _ _) A), (proj2 (Z.eqb_neq _ _) B), (proj2 (Z.eqb_neq _ _) C). reflexivity.
Qed.

(** ** Side views *)

(** Every side view shows the front voxel by its own depth axis, on a canvas
    whose sides are multiples of 4; no pixel falls outside. *)
Theorem C65_side_view : forall xa ya za r, reader_ok r -> r_voxels r <> [] ->
  exists p xmin xmax ymin ymax,
    diag_load xa ya za r = Some p /\
    Least (dot xa) (r_voxels r) xmin /\ Greatest (dot xa) (r_voxels r) xmax /\
    Least (dot ya) (r_voxels r) ymin /\ Greatest (dot ya) (r_voxels r) ymax /\
    (p_w p mod 4 = 0 /\ xmax - xmin + 1 <= p_w p < xmax - xmin + 5) /\
    (p_h p mod 4 = 0 /\ ymax - ymin + 3 + 4 <= p_h p < ymax - ymin + 3 + 8) /\
    forall y x,
      (p_px p y x = 0 /\ forall i v f, ~ SideHit xa ya (r_voxels r) (y + ymin) (x + xmin) i v f) \/
      exists i v f, SideFront xa ya za (r_voxels r) (y + ymin) (x + xmin) i v f /\ p_px p y x = side_value v f.
Proof. intros xa ya za r [IV _] N. exact (diag_pixels xa ya za r IV N). Qed.

(** The third and fourth view do not depend on the order of the voxels. *)
Theorem C65_side_order : forall xa ya za r r' p p',
  In (xa, ya, za) (skipn 2 diag_views) ->
  reader_ok r -> reader_ok r' -> r_voxels r <> [] -> r_voxels r' <> [] ->
  (forall v, In v (r_voxels r) <-> In v (r_voxels r')) ->
  (forall v v', In v (r_voxels r) -> In v' (r_voxels r) ->
     vx v = vx v' -> vy v = vy v' -> vz v = vz v' -> vi v = vi v') ->
  diag_load xa ya za r = Some p -> diag_load xa ya za r' = Some p' ->
  p_w p = p_w p' /\ p_h p = p_h p' /\ forall y x, p_px p y x = p_px p' y x.
Proof.
  intros xa ya za r r' p p' IA R R' NE NE' S U E E'.
  destruct (diag_pixels xa ya za r (proj1 R) NE) as (p0 & xmin & xmax & ymin & ymax & EP & X1 & X2 & Y1 & Y2 & W & H & P).
  destruct (diag_pixels xa ya za r' (proj1 R') NE') as (p1 & xmin' & xmax' & ymin' & ymax' & EP' & X1' & X2' & Y1' & Y2' & W' & H' & P').
  rewrite E in EP. rewrite E' in EP'. apply some_inj in EP, EP'. subst p0 p1.
  assert (LE : forall f a a', Least f (r_voxels r) a -> Least f (r_voxels r') a' -> a = a').
  { intros f a a' [(u & I & <-) A] [(u' & I' & <-) A']. apply S in I'. pose proof (A u' I'). apply S in I. pose proof (A' u I). lia. }
  assert (GE : forall f a a', Greatest f (r_voxels r) a -> Greatest f (r_voxels r') a' -> a = a').
  { intros f a a' [(u & I & <-) A] [(u' & I' & <-) A']. apply S in I'. pose proof (A u' I'). apply S in I. pose proof (A' u I). lia. }
  assert (HH : p_h p = p_h p').
  { unfold diag_load in E, E'.
    pose proof (LE _ _ _ Y1 Y1') as QY. pose proof (GE _ _ _ Y2 Y2') as QY'.
    destruct (amin (map (dot xa) (r_voxels r))); [|discriminate E]. cbn [bind] in E.
    destruct (amax (map (dot xa) (r_voxels r))); [|discriminate E]. cbn [bind] in E.
    destruct (amin (map (dot ya) (r_voxels r))) as [a1|] eqn:A1; [|discriminate E]. cbn [bind] in E.
    destruct (amax (map (dot ya) (r_voxels r))) as [a2|] eqn:A2; [|discriminate E]. cbn [bind] in E.
    destruct (amin (map (dot xa) (r_voxels r'))); [|discriminate E']. cbn [bind] in E'.
    destruct (amax (map (dot xa) (r_voxels r'))); [|discriminate E']. cbn [bind] in E'.
    destruct (amin (map (dot ya) (r_voxels r'))) as [b1|] eqn:B1; [|discriminate E']. cbn [bind] in E'.
    destruct (amax (map (dot ya) (r_voxels r'))) as [b2|] eqn:B2; [|discriminate E']. cbn [bind] in E'.
    apply amin_least in A1, B1. apply amax_greatest in A2, B2.
    pose proof (LE _ _ _ A1 B1). pose proof (GE _ _ _ A2 B2). subst b1 b2.
    match type of E with bind ?q _ = _ => destruct q; [|discriminate E] end. cbn [bind] in E.
    match type of E' with bind ?q _ = _ => destruct q; [|discriminate E'] end. cbn [bind] in E'.
    apply some_inj in E, E'. subst p p'. reflexivity. }
  pose proof (LE _ _ _ X1 X1') as QX. pose proof (LE _ _ _ Y1 Y1') as QY. pose proof (GE _ _ _ X2 X2') as QX'. subst xmin' ymin' xmax'.
  split; [Z.to_euclidean_division_equations; lia|]. split; [exact HH|].
  intros y x. destruct (P y x) as [[E0 N] | (i & v & f & F & E1)];
    destruct (P' y x) as [[E0' N'] | (i' & v' & f' & F' & E1')].
  - congruence.
  - exfalso. destruct F' as [(NE1 & FA) _]. apply nth_error_In in NE1. apply S in NE1. apply In_nth_error in NE1 as (j & NE1).
    exact (N j v' f' (conj NE1 FA)).
  - exfalso. destruct F as [(NE1 & FA) _]. apply nth_error_In in NE1. apply S in NE1. apply In_nth_error in NE1 as (j & NE1).
    exact (N' j v f (conj NE1 FA)).
  - destruct F as [[N1 F1] M1], F' as [[N2 F2] M2].
    pose proof (nth_error_In _ _ N1) as I. pose proof (nth_error_In _ _ N2) as I'.
    destruct (In_nth_error _ _ (proj1 (S v) I)) as (j & J). destruct (In_nth_error _ _ (proj2 (S v') I')) as (j' & J').
    assert (DD : dot za v = dot za v').
    { destruct (M1 j' v' f' (conj J' F2)) as [A|[A _]]; destruct (M2 j v f (conj J F1)) as [B|[B _]]; lia. }
    apply S in I'.
    assert (SAME : vx v = vx v' /\ vy v = vy v' /\ vz v = vz v').
    { assert (BX : dot xa v = dot xa v' /\ Z.abs (dot ya v - dot ya v') <= 2).
      { unfold side_face in F1, F2.
        destruct (Z.eqb_spec (x + xmin) (dot xa v)) as [e1|]; [|discriminate F1].
        destruct (Z.eqb_spec (x + xmin) (dot xa v')) as [e2|]; [|discriminate F2].
        split; [congruence|].
        destruct (Z.eqb_spec (y + ymin) (dot ya v)), (Z.eqb_spec (y + ymin) (dot ya v + 1)), (Z.eqb_spec (y + ymin) (dot ya v + 2)),
          (Z.eqb_spec (y + ymin) (dot ya v')), (Z.eqb_spec (y + ymin) (dot ya v' + 1)), (Z.eqb_spec (y + ymin) (dot ya v' + 2));
          cbn [orb] in F1, F2; try discriminate F1; try discriminate F2; lia. }
      destruct BX as [BX BY]. cbn [skipn diag_views In] in IA.
      destruct IA as [IA|[IA|[]]]; apply pair_inj in IA as [IA <-]; apply pair_inj in IA as [<- <-];
        unfold dot in *; lia. }
    pose proof (U v v' I I' (proj1 SAME) (proj1 (proj2 SAME)) (proj2 (proj2 SAME))) as A4.
    destruct v as [a1 a2 a3 a4], v' as [b1 b2 b3 b4]. cbn [vx vy vz vi] in *. destruct SAME as (-> & -> & ->). subst b4.
    rewrite F1 in F2. apply some_inj in F2. subst f'. congruence.
Qed.

(** ** Refuted expectations *)

Definition ex_lib : vlib := mk_vlib (fun c => let '(r, _, _) := c in if r =? 0 then 1 else if r <? 100 then 50 else 40) None None None (fun v => vx v + vy v + vz v).
Definition ex_palette : list (Z * Z * Z * Z) := (200, 10, 10, 255) :: (0, 0, 0, 255) :: repeat (9, 9, 9, 255) 253.
Definition ex_other : other := mk_other [77; 65; 84; 76] 0 [1; 2; 3].
Definition ex_file (sx sy : Z) (v : list (Z * Z * Z * Z)) : bytes :=
  vox_file [86; 79; 88; 32; 150; 0; 0; 0] 1100 [] [ex_other] [] [ex_other] sx sy 4 v ex_palette (0, 0, 0, 0).

Lemma sample {A B} (f : A -> B) (o : option A) (b : B) : option_map f o = Some b -> exists a, o = Some a /\ f a = b.
Proof. destruct o as [a|]; [|discriminate]. intros E. apply some_inj in E. exists a. split; [reflexivity|exact E]. Qed.

(** size and some pixels *)
Definition look (ys xs : list Z) (s : picture) : Z * Z * list (list Z) := (p_w s, p_h s, map (fun y => map (p_px s y) xs) ys).

Example ex_lib_ok : lib_ok ex_lib.
Proof.
  split; [|repeat split]. intros [[r g] b]. cbn. destruct (r =? 0); [|destruct (r <? 100)]; unfold in_safe; lia.
Qed.
Example ex_file_ok : forall sx sy v, 0 <= sx < 100 -> 0 <= sy < 100 -> v <> [] -> 4 + 4 * len v < 2 ^ 32 ->
  Forall (fun p => let '(x, y, z, i) := p in 0 < i < 256) v ->
  file_ok [86; 79; 88; 32; 150; 0; 0; 0] 1100 [] [ex_other] [] [ex_other] sx sy 4 v ex_palette.
Proof.
  intros sx sy v SX SY NV LV IV.
  assert (O : other_ok ex_other) by (repeat split; try discriminate; cbn; lia).
  unfold file_ok. change (2 ^ 32) with 4294967296 in *.
  split; [reflexivity|]. split; [lia|]. split; [constructor|]. split; [constructor; [exact O|constructor]|].
  split; [constructor|]. split; [constructor; [exact O|constructor]|]. split; [lia|]. split; [lia|]. split; [lia|].
  split; [exact NV|]. split; [exact LV|]. split; [reflexivity|exact IV].
Qed.

(** The hypotheses are met by a model of three voxels, two of which overlap. *)
Definition ex_voxels : list (Z * Z * Z * Z) := [(0, 1, 0, 1); (1, 1, 0, 3); (0, 0, 1, 1)].
Example C65_house_meets :
  lib_ok ex_lib /\ file_ok [86; 79; 88; 32; 150; 0; 0; 0] 1100 [] [ex_other] [] [ex_other] 2 2 4 ex_voxels ex_palette /\ narrow 2 ex_voxels /\
  exists s, vox_house ex_lib (ex_file 2 2 ex_voxels) ZOOM_NORMAL = Some s /\
     look [0; 1; 2] [0; 1; 2; 3] s = (4, 3, [[40; 40; 0; 0]; [40; 40; 50; 50]; [0; 0; 50; 50]]).
Proof.
  split; [exact ex_lib_ok|]. split; [apply ex_file_ok; try lia; [discriminate|cbn; lia|repeat constructor; lia]|].
  split; [repeat constructor; lia|]. apply sample. vm_compute. reflexivity.
Qed.

(** "The picture is as large as the model needs": not for models that are
    deeper than wide.  The width is subtracted from where the depth should
    be, in bytes, so a 1 x 3 x 1 model of three adjacent voxels is torn
    apart into a sprite 257 pixels wide. *)
Theorem C65_deep_refuted :
  (exists s, vox_house ex_lib (ex_file 1 3 [(0, 0, 0, 1); (0, 1, 0, 1); (0, 2, 0, 1)]) ZOOM_NORMAL = Some s /\ p_w s = 257) /\
  (exists s, vox_house ex_lib (ex_file 3 1 [(0, 0, 0, 1); (1, 0, 0, 1); (2, 0, 0, 1)]) ZOOM_NORMAL = Some s /\ p_w s = 4).
Proof. split; apply sample; vm_compute; reflexivity. Qed.

(** Exactly which models are read right: where [narrow] fails, the voxel
    comes out in a different place. *)
Theorem C65_narrow_needed : forall sx sy x y z i, 0 <= y < 256 -> ~ 0 <= sx - y < 256 ->
  place sy sx (x, y, z, i) <> game_vox sx sy (x, y, z, i).
Proof.
  intros sx sy x y z i Hy N E. apply (f_equal vy) in E. cbn in E.
  pose proof (Z.mod_pos_bound (sx - y) 256). lia.
Qed.

(** "Every voxel shows": a voxel whose nearest palette colour is 1 (black) is
    left out although it still takes its place in the bounding box. *)
Theorem C65_black_refuted : forall k r p m q xmin xmax ymin ymax,
  lib_ok k -> reader_ok r -> house_load k r = Some p -> r_rgba r = Some q ->
  Scene k q (r_voxels r) m xmin xmax ymin ymax ->
  (forall v i, In v (r_voxels r) -> index_colour k q (vi v) i -> i = 1) ->
  forall y x, house_palette k (p_px p y x) = 0.
Proof.
  intros k r p m q xmin xmax ymin ymax K R E Q S B y x.
  destruct (shows_of k r p K R E) as (q' & m' & x1 & x2 & y1 & y2 & Q' & S' & W & H & P).
  rewrite Q in Q'. apply some_inj in Q'. subst q'.
  destruct (P y x) as [[E0 _] | (i & v & c & f & [[N [C1 F]] _] & E1)]; [exact E0|].
  exfalso. apply C1. destruct S' as [S' _].
  assert (I : exists u, In u (r_voxels r) /\ index_colour k q (vi u) c).
  { apply nth_error_In in N. clear -S' N. induction S' as [|u p l m [A D] S IH]; [destruct N|].
    destruct N as [->|N]; [exists u; split; [left; reflexivity|exact D]|]. destruct (IH N) as (u' & I & J). exists u'. split; [right; exact I|exact J]. }
  destruct I as (u & I & J). exact (B u c I J).
Qed.
Example C65_black_meets : exists p,
  (do r <- vox_read (ex_file 2 2 [(0, 1, 0, 2)]) reader0; house_load ex_lib r) = Some p /\
  look [0; 1; 2] [0; 1] p = (2, 3, [[0; 0]; [0; 0]; [0; 0]]).
Proof. apply sample. vm_compute. reflexivity. Qed.

(** "A model that is its own mirror image gives a mirrored picture": at 4x
    the background below a left face cuts off the lower tip of the face, the
    background below a right face does not. *)
Theorem C65_mirror_refuted :
  let v := [(0, 2, 1, 1); (1, 1, 0, 1)] in
  (forall u, In u (map (game_vox 2 2) v) -> vx u - vy u = 2) /\ k_x ex_lib = k_y ex_lib /\
  exists s, vox_house ex_lib (ex_file 2 2 v) ZOOM_4X = Some s /\ p_w s = 8 /\
    p_px s 5 (7 - 5) = p_px s 5 5 /\ p_px s 6 (7 - 5) = 0 /\ p_px s 6 5 = 40.
Proof.
  cbv zeta. split; [intros u [<-|[<-|[]]]; reflexivity|]. split; [reflexivity|].
  destruct (sample (look [5; 6] [2; 5]) (vox_house ex_lib (ex_file 2 2 [(0, 2, 1, 1); (1, 1, 0, 1)]) ZOOM_4X)
              (8, 15, [[40; 40]; [0; 40]])) as (s & E & L); [vm_compute; reflexivity|].
  exists s. split; [exact E|]. unfold look in L. cbn [map] in L. change (7 - 5) with 2. inversion L as [[A B C1 C2 C3 C4]]. repeat split; congruence.
Qed.

(** "A side view shows what is in front, whatever the order of the voxels":
    the first two views measure depth along the axis of the columns, which is
    constant in each column, so a floor of two voxels one behind the other
    comes out differently in either order, and in one of them the covered
    side of the farther voxel is drawn over the top of the nearer one. *)
Theorem C65_side_order_refuted :
  let a := mk_vox 0 0 0 1 in
  let b := mk_vox 0 1 0 2 in
  exists xa ya za p p', In (xa, ya, za) (firstn 2 diag_views) /\
    diag_load xa ya za (mk_reader None [a; b] None) = Some p /\
    diag_load xa ya za (mk_reader None [b; a] None) = Some p' /\
    p_px p 1 0 = side_value a true /\ p_px p' 1 0 = side_value b false.
Proof.
  destruct (sample (look [1] [0]) (diag_load (1, 0, 0) (0, 1, -2) (2, 0, 1) (mk_reader None [mk_vox 0 0 0 1; mk_vox 0 1 0 2] None))
              (4, 8, [[257]])) as (p & E & L); [vm_compute; reflexivity|].
  destruct (sample (look [1] [0]) (diag_load (1, 0, 0) (0, 1, -2) (2, 0, 1) (mk_reader None [mk_vox 0 1 0 2; mk_vox 0 0 0 1] None))
              (4, 8, [[2]])) as (p' & E' & L'); [vm_compute; reflexivity|].
  exists (1, 0, 0), (0, 1, -2), (2, 0, 1), p, p'. split; [left; reflexivity|].
  split; [exact E|]. split; [exact E'|]. unfold look in L, L'. cbn [map] in L, L'.
  inversion L as [[A B C]]. inversion L' as [[A' B' C']]. split; [rewrite C; reflexivity|rewrite C'; reflexivity].
Qed.
Example C65_side_meets : exists r p, vox_read (ex_file 2 2 ex_voxels) reader0 = Some r /\ reader_ok r /\
  diag_load (0, -1, 0) (1, 0, -2) (1, 0, 1) r = Some p /\
  look [0; 1; 2; 3; 4; 5] [0; 1] p = (4, 12, [[1; 0]; [257; 0]; [257; 1]; [0; 3]; [0; 259]; [0; 259]]).
Proof.
  set (r := mk_reader (Some (2, 2, 4)) (map (game_vox 2 2) ex_voxels) (Some ex_palette)).
  destruct (sample (look [0; 1; 2; 3; 4; 5] [0; 1]) (diag_load (0, -1, 0) (1, 0, -2) (1, 0, 1) r)
    (4, 12, [[1; 0]; [257; 0]; [257; 1]; [0; 3]; [0; 259]; [0; 259]])) as (p & E & L); [vm_compute; reflexivity|].
  exists r, p. split; [|split; [split; [repeat constructor; cbn; lia|eexists; split; reflexivity]|split; [exact E|exact L]]].
  refine (C65_reads _ _ _ _ _ _ _ _ _ ex_voxels ex_palette (0, 0, 0, 0) reader0 (ex_file_ok 2 2 ex_voxels _ _ _ _ _) _);
    try lia; [discriminate|cbn; lia|repeat constructor; lia|repeat constructor; lia].
Qed.

(** The conditions of the order theorem are met by a model and its reversal. *)
Definition ex_lib2 : vlib := mk_vlib (k_best ex_lib) (Some (fun _ => 7)) None None (fun v => 1000 * (vx v + vy v) + vz v).
Definition ex_reader (l : list vox) : reader := mk_reader (Some (2, 2, 4)) l (Some ex_palette).
Example C65_order_meets :
  let l := map (game_vox 2 2) ex_voxels in
  lib_ok ex_lib2 /\ reader_ok (ex_reader l) /\ reader_ok (ex_reader (rev l)) /\
  (forall v, In v l <-> In v (rev l)) /\
  (forall v v', In v l -> In v' l -> k_depth ex_lib2 v = k_depth ex_lib2 v' -> vx v + vy v = vx v' + vy v' /\ vz v = vz v') /\
  (forall v v', In v l -> In v' l -> vx v = vx v' -> vy v = vy v' -> vz v = vz v' -> vi v = vi v') /\
  exists p, house_load ex_lib2 (ex_reader l) = Some p /\
    look [0; 1; 2; 3; 4] [0; 1; 2; 3] p =
    (4, 5, [[40; 296; 0; 0]; [552; 808; 296; 0]; [552; 808; 50; 306]; [0; 552; 562; 818]; [0; 0; 562; 818]]).
Proof.
  cbv zeta. split; [split; [exact (proj1 ex_lib_ok)|repeat split; intros c; unfold in_safe; lia]|].
  split; [split; [repeat constructor; cbn; lia|eexists; split; reflexivity]|].
  split; [split; [repeat constructor; cbn; lia|eexists; split; reflexivity]|].
  split; [intros v; apply in_rev|].
  split; [intros v v' [<-|[<-|[<-|[]]]] [<-|[<-|[<-|[]]]]; cbn; lia|].
  split; [intros v v' [<-|[<-|[<-|[]]]] [<-|[<-|[<-|[]]]]; cbn; lia|].
  apply sample. vm_compute. reflexivity.
Qed.

Print Assumptions C65_reads.
Print Assumptions C65_house.
Print Assumptions C65_opaque.
Print Assumptions C65_no_holes.
Print Assumptions C65_only_neighbours.
Print Assumptions C65_hidden.
Print Assumptions C65_order.
Print Assumptions C65_refuses.
Print Assumptions C65_side_view.
Print Assumptions C65_side_order.
Print Assumptions C65_deep_refuted.
Print Assumptions C65_narrow_needed.
Print Assumptions C65_black_refuted.
Print Assumptions C65_mirror_refuted.
Print Assumptions C65_side_order_refuted.
