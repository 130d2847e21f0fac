(** Reading whole files; order independence; side views. *)
From Verif Require Import Base BaseFacts VoxModel SpecVox VoxProofs VoxProofs2 VoxProofs3 VoxProofs4.
From Coq Require Import ZArith List Bool Lia.
Import ListNotations.
Open Scope Z_scope.

Lemma read_file head m a b c d sx sy sz v q last r :
  length head = 8%nat -> 0 <= m < 2 ^ 32 ->
  Forall other_ok a -> Forall other_ok b -> Forall other_ok c -> Forall other_ok d ->
  0 <= sx < 2 ^ 32 -> 0 <= sy < 2 ^ 32 -> 0 <= sz < 2 ^ 32 ->
  4 + 4 * len v < 2 ^ 32 -> length q = 255%nat -> Forall (fun p => 0 < snd p) v ->
  vox_read (vox_file head m a b c d sx sy sz v q last) r =
  Some (mk_reader (Some (sy, sx, sz)) (map (place sy sx) v) (Some q)).
Proof.
  intros LH M A B C D SX SY SZ LV LQ IV.
  unfold vox_read. remember (S (length (vox_file head m a b c d sx sy sz v q last))) as fuel eqn:EF.
  unfold vox_file. rewrite skipn_app, skipn_all2 by lia. rewrite LH, Nat.sub_diag. cbn [app]. change (skipn 0 ?x) with x.
  unfold vox_file in EF. rewrite app_length in EF.
  assert (L : (length (chunk MAIN m [] ++ other_bytes a ++ chunk SIZE 0 (size_content sx sy sz) ++ other_bytes b ++
    chunk XYZI 0 (xyzi_content v) ++ other_bytes c ++ chunk RGBA 0 (rgba_content q last) ++ other_bytes d) < fuel)%nat) by lia.
  clear EF LH. change (2 ^ 32) with 4294967296 in *.
  destruct fuel as [|fuel]; [lia|].
  rewrite read_chunk by (try reflexivity; try (change (2 ^ 32) with 4294967296); unfold len; cbn; lia).
  rewrite chunk_other by discriminate. cbn [bind].
  rewrite app_length, chunk_len in L.
  match goal with |- read_chunks fuel (other_bytes a ++ ?t) r = _ => destruct (read_others a A fuel t r) as (f1 & L1 & ->); [lia|] end.
  destruct f1 as [|f1]; [lia|].
  rewrite read_chunk by (try reflexivity; try (change (2 ^ 32) with 4294967296); unfold len; cbn; lia).
  assert (S1 : forall t, chunk_step SIZE (size_content sx sy sz ++ t) r = Some (mk_reader (Some (sy, sx, sz)) (r_voxels r) (r_rgba r))).
  { intros t. unfold chunk_step. change (beq SIZE id_XYZI) with false. change (beq SIZE id_SIZE) with true. cbv iota. cbn [bind].
    unfold read_size, size_content. rewrite <- !app_assoc.
    rewrite rd_le4 by (change (2 ^ 32) with 4294967296; lia). cbn [bind].
    rewrite rd_le4 by (change (2 ^ 32) with 4294967296; lia). cbn [bind].
    rewrite rd_le4 by (change (2 ^ 32) with 4294967296; lia). reflexivity. }
  rewrite S1. clear S1. cbn [bind].
  rewrite app_length, chunk_len in L1.
  match goal with |- read_chunks f1 (other_bytes b ++ ?t) ?r1 = _ => destruct (read_others b B f1 t r1) as (f2 & L2 & ->); [lia|] end.
  destruct f2 as [|f2]; [lia|].
  assert (LX : len (xyzi_content v) < 2 ^ 32).
  { unfold len, xyzi_content, le4 in *. rewrite app_length, quads_len. cbn [length]. change (2 ^ 32) with 4294967296. lia. }
  rewrite read_chunk by (try reflexivity; try exact LX; change (2 ^ 32) with 4294967296; lia).
  assert (S2 : forall t, chunk_step XYZI (xyzi_content v ++ t) (mk_reader (Some (sy, sx, sz)) (r_voxels r) (r_rgba r)) =
     Some (mk_reader (Some (sy, sx, sz)) (map (place sy sx) v) (r_rgba r))).
  { intros t. unfold chunk_step. change (beq XYZI id_XYZI) with true. change (beq XYZI id_SIZE) with false.
    change (beq XYZI id_RGBA) with false. cbv iota.
    unfold read_xyzi, xyzi_content. rewrite <- !app_assoc.
    rewrite rd_le4 by (change (2 ^ 32) with 4294967296; unfold len in *; lia). cbn [bind].
    unfold len. rewrite Nat2Z.id, read_quads_ok. cbn [bind r_size].
    replace (forallb (fun v0 : vox => 0 <? vi v0) (map (place sy sx) v)) with true; [reflexivity|].
    symmetry. apply forallb_forall. intros u U. apply in_map_iff in U as ([[[x y] z] i] & <- & U).
    rewrite Forall_forall in IV. specialize (IV _ U). cbn [snd] in IV. cbn [place vi]. apply Z.ltb_lt. exact IV. }
  rewrite S2. clear S2. cbn [bind].
  rewrite app_length, chunk_len in L2.
  match goal with |- read_chunks f2 (other_bytes c ++ ?t) ?r1 = _ => destruct (read_others c C f2 t r1) as (f3 & L3 & ->); [lia|] end.
  destruct f3 as [|f3]; [lia|].
  assert (LR : len (rgba_content q last) < 2 ^ 32).
  { unfold len, rgba_content. rewrite quads_len, app_length, LQ. cbn [length]. change (2 ^ 32) with 4294967296. lia. }
  rewrite read_chunk by (try reflexivity; try exact LR; change (2 ^ 32) with 4294967296; lia).
  assert (S3 : forall t, chunk_step RGBA (rgba_content q last ++ t) (mk_reader (Some (sy, sx, sz)) (map (place sy sx) v) (r_rgba r)) =
     Some (mk_reader (Some (sy, sx, sz)) (map (place sy sx) v) (Some q))).
  { intros t. unfold chunk_step. change (beq RGBA id_XYZI) with false. change (beq RGBA id_SIZE) with false.
    change (beq RGBA id_RGBA) with true. cbv iota. cbn [bind].
    unfold read_rgba, rgba_content. rewrite quads_app, <- app_assoc.
    rewrite <- LQ. rewrite read_quads_ok. reflexivity. }
  rewrite S3. clear S3. cbn [bind].
  rewrite app_length, chunk_len in L3.
  match goal with |- read_chunks f3 (other_bytes d) ?r1 = _ => destruct (read_others d D f3 [] r1) as (f4 & L4 & E4); [rewrite app_nil_r; lia|] end.
  rewrite app_nil_r in E4. rewrite E4. destruct f4 as [|f4]; [cbn in L4; lia|]. reflexivity.
Qed.

Lemma place_game sx sy v : Forall (fun p => let '(_, y, _, _) := p in 0 <= sx - y < 256) v ->
  map (place sy sx) v = map (game_vox sx sy) v.
Proof.
  intros F. apply map_ext_in. intros [[[x y] z] i] I. rewrite Forall_forall in F. specialize (F _ I). cbn in F.
  unfold place, game_vox. rewrite Z.mod_small by lia. reflexivity.
Qed.

(** ** Side views *)

Lemma ev_diag xa ya xmin ymin d v y x :
  ev diag_stencil (mk_spot (dot xa v - xmin) (dot ya v - ymin) d (vi v)) y x =
  match side_face xa ya v (y + ymin) (x + xmin) with
  | None => None
  | Some f => Some (d, Z.lor (vi v) (if f then 256 else 0))
  end.
Proof.
  unfold diag_stencil, ev, side_face. cbn [sx sy sz sc].
  repeat match goal with |- context [?a =? ?b] => destruct (Z.eqb_spec a b) end;
    cbn [andb orb negb]; try lia; try reflexivity.
Qed.

Lemma lor_256 c (f : bool) : 0 <= c < 256 -> Z.lor c (if f then 256 else 0) = c + (if f then 256 else 0).
Proof.
  intros H. destruct f.
  - exact (lor_bits c Top true H).
  - exact (lor_bits c Top false H).
Qed.

Lemma diag_pixels xa ya za r : Forall (fun v => 1 <= vi v <= 255) (r_voxels r) -> r_voxels r <> [] ->
  exists p xmin xmax ymin ymax,
    diag_load xa ya za r = Some p /\
    Least (dot xa) (r_voxels r) xmin /\ Greatest (dot xa) (r_voxels r) xmax /\
    Least (dot ya) (r_voxels r) ymin /\ Greatest (dot ya) (r_voxels r) ymax /\
    (p_w p mod 4 = 0 /\ xmax - xmin + 1 <= p_w p < xmax - xmin + 5) /\
    (p_h p mod 4 = 0 /\ ymax - ymin + 3 + 4 <= p_h p < ymax - ymin + 3 + 8) /\
    forall y x,
      (p_px p y x = 0 /\ forall i v f, ~ SideHit xa ya (r_voxels r) (y + ymin) (x + xmin) i v f) \/
      exists i v f, SideFront xa ya za (r_voxels r) (y + ymin) (x + xmin) i v f /\ p_px p y x = side_value v f.
Proof.
  intros IV N. unfold diag_load.
  assert (M : forall f, exists m, amin (map f (r_voxels r)) = Some m) by (intros f; destruct (r_voxels r); [congruence|eexists; reflexivity]).
  assert (M' : forall f, exists m, amax (map f (r_voxels r)) = Some m) by (intros f; destruct (r_voxels r); [congruence|eexists; reflexivity]).
  destruct (M (dot xa)) as [xmin E1], (M' (dot xa)) as [xmax E2], (M (dot ya)) as [ymin E3], (M' (dot ya)) as [ymax E4].
  rewrite E1, E2, E3, E4. cbn [bind].
  apply amin_least in E1, E3. apply amax_greatest in E2, E4.
  set (w := (xmax - xmin + 1 + 3) / 4 * 4). set (h := (ymax - ymin + 3 + 7) / 4 * 4).
  assert (W : w mod 4 = 0 /\ xmax - xmin + 1 <= w < xmax - xmin + 5) by (unfold w; Z.to_euclidean_division_equations; lia).
  assert (H : h mod 4 = 0 /\ ymax - ymin + 3 + 4 <= h < ymax - ymin + 3 + 8) by (unfold h; Z.to_euclidean_division_equations; lia).
  set (sp := fun v => mk_spot (dot xa v - xmin) (dot ya v - ymin) (dot za v) (vi v)).
  assert (FIT : Forall (fits h w diag_stencil) (map sp (r_voxels r))).
  { apply Forall_forall. intros s I. apply in_map_iff in I as (v & <- & IV').
    pose proof (proj2 E1 v IV'). pose proof (proj2 E2 v IV'). pose proof (proj2 E3 v IV'). pose proof (proj2 E4 v IV').
    intros dx dy side D. cbn [sx sy sp].
    unfold diag_stencil in D. cbn [In] in D.
    repeat (destruct D as [D|D]; [apply pair_inj in D as [D _]; apply pair_inj in D as [<- <-]; lia|]). destruct D. }
  destruct (paint_all_px _ _ diag_stencil _ blank FIT) as (st & E & P). rewrite E. cbn [bind].
  eexists _, xmin, xmax, ymin, ymax. split; [reflexivity|]. cbn [p_h p_w p_px].
  do 4 (split; [assumption|]). split; [exact W|]. split; [exact H|].
  intros y x. rewrite P. unfold blank.
  destruct (winner (fun s => ev diag_stencil s y x) (map sp (r_voxels r)))
    as [[Wn Nn] | (i & s & z & c & Ni & F & Wn & Mx)]; rewrite Wn; cbn [snd].
  - left. split; [reflexivity|]. intros j v f (J & C2).
    pose proof (Nn (sp v) (in_map sp _ _ (nth_error_In _ _ J))) as Q. unfold sp in Q. rewrite ev_diag, C2 in Q. discriminate Q.
  - right. rewrite nth_error_map in Ni.
    destruct (nth_error (r_voxels r) i) as [v|] eqn:NI; [|discriminate].
    cbn [option_map] in Ni. apply some_inj in Ni. subst s. unfold sp in F. rewrite ev_diag in F.
    destruct (side_face xa ya v (y + ymin) (x + xmin)) as [f|] eqn:FV; [|discriminate].
    apply some_inj, pair_inj in F as [<- <-].
    exists i, v, f. split.
    + split; [split; [exact NI|exact FV]|]. intros j v' f' (J & C2').
      apply (Mx j (sp v') (dot za v') (Z.lor (vi v') (if f' then 256 else 0))).
      * rewrite nth_error_map, J. reflexivity.
      * unfold sp. rewrite ev_diag, C2'. reflexivity.
    + unfold side_value. rewrite Forall_forall in IV. pose proof (IV v (nth_error_In _ _ NI)). apply lor_256. lia.
Qed.

(** ** Order *)

(** The front voxel does not depend on the order if depths decide. *)
Lemma front_same d m m' Y X i v c f i' v' c' f' :
  (forall u e, In (u, e) m <-> In (u, e) m') ->
  (forall u e u' e' g g', In (u, e) m -> In (u', e') m -> e <> 1 -> e' <> 1 ->
     face_of u Y X = Some g -> face_of u' Y X = Some g' -> d u = d u' -> u = u' /\ e = e') ->
  Front d m Y X i v c f -> Front d m' Y X i' v' c' f' -> v = v' /\ c = c' /\ f = f'.
Proof.
  intros S D [[N [C F]] M] [[N' [C' F']] M'].
  assert (I : In (v, c) m) by exact (nth_error_In _ _ N).
  assert (I' : In (v', c') m) by (apply S; exact (nth_error_In _ _ N')).
  assert (J : In (v, c) m') by (apply S; exact I).
  apply In_nth_error in J as (j & J). destruct (In_nth_error _ _ I') as (j' & J').
  destruct (M j' v' c' f' (conj J' (conj C' F'))) as [A|[A _]];
  destruct (M' j v c f (conj J (conj C F))) as [B|[B _]]; try lia.
  destruct (D v c v' c' f f' I I' C C' F F' (eq_sym A)) as [-> ->].
  rewrite F in F'. apply some_inj in F' as ->. auto.
Qed.

(** Cubes at one pixel in the same vertical plane and at the same height are
    the same cube. *)
Lemma same_place v v' Y X f f' : face_of v Y X = Some f -> face_of v' Y X = Some f' ->
  vx v + vy v = vx v' + vy v' -> vz v = vz v' -> vx v = vx v' /\ vy v = vy v' /\ vz v = vz v'.
Proof.
  intros F F' S Hz. apply face_inv in F as [D _]. apply face_inv in F' as [D' _].
  unfold col_of in *. lia.
Qed.
