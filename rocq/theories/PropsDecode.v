(** Reading real sprites back (C41, C42), names of extracted files (C43) and
    sprite sheets (C56). *)
From Coq Require Import ZArith List Bool Lia.
From Verif Require Import Base BaseFacts DecodeModel SpecDecode DecodeProofs ChunkProofs SheetProofs.
Import ListNotations.
Open Scope Z_scope.

Lemma land_testbit : forall t n, 0 <= n -> (Z.land t (2 ^ n) =? 0) = negb (Z.testbit t n).
Proof.
  intros t n H. destruct (Z.testbit t n) eqn:T; cbn [negb].
  - apply Z.eqb_neq. intros E. assert (Q : Z.testbit (Z.land t (2 ^ n)) n = false) by (rewrite E; apply Z.bits_0).
    rewrite Z.land_spec, T, Z.pow2_bits_true in Q by lia. discriminate.
  - apply Z.eqb_eq. apply Z.bits_inj'. intros k Hk. rewrite Z.land_spec, Z.bits_0.
    destruct (Z.eq_dec n k) as [<-|N]; [rewrite T; reflexivity|].
    rewrite Z.pow2_bits_false by lia. apply andb_false_r.
Qed.
Lemma channels_ok : forall s, g_bpp s = channels (g_type s).
Proof.
  intros s. unfold g_bpp, channels.
  change 1 with (2 ^ 0) at 1. change 2 with (2 ^ 1) at 2. change 4 with (2 ^ 2).
  rewrite !land_testbit by lia.
  destruct (Z.testbit (g_type s) 0), (Z.testbit (g_type s) 1), (Z.testbit (g_type s) 2); reflexivity.
Qed.
Lemma chunked_ok : forall s, negb (Z.land (g_type s) 8 =? 0) = chunked (g_type s).
Proof. intros s. change 8 with (2 ^ 3). rewrite land_testbit by lia. apply negb_involutive. Qed.
Lemma channels_range : forall t, 0 <= channels t <= 5.
Proof. intros t. unfold channels. destruct (Z.testbit t 0), (Z.testbit t 1), (Z.testbit t 2); lia. Qed.

Lemma F2_len : forall {A B} (P : A -> B -> Prop) l l', Forall2 P l l' -> length l = length l'.
Proof. intros A B P l l' H. induction H; [reflexivity|]. cbn [length]. f_equal. assumption. Qed.

(** C41: a stream of literals and copies whose copies end before the current
    position is decompressed to exactly the bytes it describes, and reading
    stops right after it. *)
Theorem C41_decompress_partial : forall bs rest,
  blocks_valid 0 bs -> Forall (fun b => ~ self_overlapping b) bs ->
  decode_data (Z.of_nat (length (expand bs))) (stream bs ++ rest) = Some (expand bs, rest).
Proof. exact decode_data_stream. Qed.

Lemma chop_shows : forall h w bpp d, 0 <= h -> 0 <= w -> 0 <= bpp -> len d = h * w * bpp ->
  shows_bytes (chop (Z.to_nat h) (Z.to_nat w) (chop (Z.to_nat (h * w)) (Z.to_nat bpp) d)) h w bpp d.
Proof.
  intros h w bpp d Hh Hw Hb L.
  set (px := chop (Z.to_nat (h * w)) (Z.to_nat bpp) d).
  assert (Hhw : 0 <= h * w) by (apply Z.mul_nonneg_nonneg; lia).
  assert (Lp : length px = Z.to_nat (h * w)) by apply chop_length.
  assert (Row : forall y, 0 <= y < h -> nth_error (chop (Z.to_nat h) (Z.to_nat w) px) (Z.to_nat y)
     = Some (firstn (Z.to_nat w) (skipn (Z.to_nat (y * w)) px))).
  { intros y Hy. rewrite chop_nth by lia. do 3 f_equal. rewrite Z2Nat.inj_mul by lia. reflexivity. }
  assert (Fit : forall y, 0 <= y < h -> y * w + w <= h * w).
  { intros y Hy. replace (y * w + w) with ((y + 1) * w) by lia. apply Z.mul_le_mono_nonneg_r; lia. }
  split; [|split].
  - rewrite chop_length. lia.
  - apply Forall_forall. intros row Hr. apply In_nth_error in Hr as (k & Hk).
    assert (K : (k < Z.to_nat h)%nat).
    { assert (N : nth_error (chop (Z.to_nat h) (Z.to_nat w) px) k <> None) by congruence.
      apply nth_error_Some in N. rewrite chop_length in N. exact N. }
    pose proof (Row (Z.of_nat k) ltac:(lia)) as R. rewrite Nat2Z.id, Hk in R.
    apply some_inj in R. rewrite R. rewrite firstn_length, skipn_length, Lp.
    pose proof (Fit (Z.of_nat k) ltac:(lia)). lia.
  - intros y x Hy Hx. pose proof (Fit y Hy).
    assert (Hyw : 0 <= y * w) by (apply Z.mul_nonneg_nonneg; lia).
    exists (firstn (Z.to_nat bpp) (skipn (Z.to_nat ((y * w + x) * bpp)) d)).
    assert (B : (y * w + x) * bpp + bpp <= len d).
    { rewrite L. replace ((y * w + x) * bpp + bpp) with ((y * w + x + 1) * bpp) by lia.
      apply Z.mul_le_mono_nonneg_r; lia. }
    assert (B0 : 0 <= (y * w + x) * bpp) by (apply Z.mul_nonneg_nonneg; lia).
    split; [|split].
    + exists (firstn (Z.to_nat w) (skipn (Z.to_nat (y * w)) px)). split; [apply Row, Hy|].
      rewrite nth_error_firstn' by lia. rewrite nth_error_skipn'.
      unfold px. rewrite chop_nth by lia. do 3 f_equal.
      rewrite <- Z2Nat.inj_add by lia. rewrite Z2Nat.inj_mul by lia. reflexivity.
    + rewrite firstn_length, skipn_length. unfold len in B. lia.
    + intros c Hc. rewrite nth_error_firstn' by lia. rewrite nth_error_skipn'. f_equal. lia.
Qed.

(** C41, whole sprites: a plain (not chunked) sprite whose data is such a
    stream of width*height*channels bytes is decoded to the image showing
    those bytes row by row. *)
Theorem C41_sprite_partial : forall s container bs rest,
  0 <= g_width s -> 0 <= g_height s -> chunked (g_type s) = false ->
  blocks_valid 0 bs -> Forall (fun b => ~ self_overlapping b) bs ->
  Z.of_nat (length (expand bs)) = g_height s * g_width s * channels (g_type s) ->
  g_decomp s = g_height s * g_width s * channels (g_type s) ->
  exists im, decode_sprite s container (stream bs ++ rest) = Some (im, rest)
    /\ shows_bytes im (g_height s) (g_width s) (channels (g_type s)) (expand bs).
Proof.
  intros s container bs rest Hw Hh Hc V NO L D. unfold decode_sprite.
  rewrite D, <- L. fold (len (expand bs)). rewrite (decode_data_stream bs rest V NO). cbn [bind].
  rewrite chunked_ok, Hc, channels_ok. fold (len (expand bs)) in L.
  rewrite L. replace (g_width s * g_height s) with (g_height s * g_width s) by lia.
  rewrite Z.eqb_refl. eexists. split; [reflexivity|].
  apply chop_shows; [exact Hh|exact Hw|apply channels_range|exact L].
Qed.

(** C41, soundness: whenever a plain sprite is decoded without an error, its
    data was such a stream and the image shows what the stream describes --
    unless the data has a copy of distance zero, which no compressor may
    emit (the game reads uninitialised memory there). *)
Theorem C41_sound_partial : forall s container f im rest,
  0 <= g_width s -> 0 <= g_height s -> chunked (g_type s) = false ->
  g_decomp s = g_height s * g_width s * channels (g_type s) ->
  Forall (fun b => 0 <= b < 256) f ->
  decode_sprite s container f = Some (im, rest) ->
  exists bs, f = stream bs ++ rest /\
    ((exists n, In (Copy 0 n) bs) \/
     (blocks_valid 0 bs /\ Forall (fun b => ~ self_overlapping b) bs
      /\ shows_bytes im (g_height s) (g_width s) (channels (g_type s)) (expand bs))).
Proof.
  intros s container f im rest Hw Hh Hc D Bf E. unfold decode_sprite in E.
  destruct (decode_data (g_decomp s) f) as [[data f']|] eqn:DD; [|discriminate]. cbn [bind] in E.
  rewrite chunked_ok, Hc, channels_ok in E.
  destruct (len data =? g_width s * g_height s * channels (g_type s)) eqn:Q; [|discriminate].
  apply Z.eqb_eq in Q. apply some_inj in E. apply pair_inj in E as [E1 E2]. subst f'.
  pose proof (channels_range (g_type s)) as Cr.
  assert (0 <= g_decomp s) by (rewrite D; repeat apply Z.mul_nonneg_nonneg; lia).
  assert (Bf' : bytesb f = true).
  { unfold bytesb. apply forallb_forall. intros b Hb. rewrite Forall_forall in Bf. specialize (Bf b Hb).
    unfold byteb. lia. }
  assert (Ld : len data = g_height s * g_width s * channels (g_type s)) by lia.
  destruct (decode_loop_sound _ _ _ _ _ _ DD Bf' H) as (bs & Es & _ & _ & R).
  { change (len (@nil Z)) with 0. lia. }
  exists bs. split; [exact Es|]. destruct R as [R|(R1 & R2 & R3)]; [left; exact R|right].
  split; [exact R1|]. split; [exact R2|].
  change (fold_left block_out bs []) with (expand bs) in R3. rewrite <- R3, <- E1.
  apply chop_shows; [exact Hh|exact Hw|lia|exact Ld].
Qed.

(** C41 in full is false: a stream with a self-overlapping copy (legal, and
    understood by the game) is never decoded -- for every such stream of a
    plain sprite the decompiler stops with an error. *)
Theorem C41_overlapping_copy_refuted : forall s container bs rest,
  chunked (g_type s) = false ->
  blocks_valid 0 bs -> Exists self_overlapping bs ->
  Forall (fun b => 0 <= b < 256) (stream bs ++ rest) ->
  Z.of_nat (length (expand bs)) = g_height s * g_width s * channels (g_type s) ->
  g_decomp s = g_height s * g_width s * channels (g_type s) ->
  decode_sprite s container (stream bs ++ rest) = None.
Proof.
  intros s container bs rest Hc V X B L D. unfold decode_sprite.
  assert (B' : bytesb (stream bs ++ rest) = true).
  { unfold bytesb. apply forallb_forall. intros b Hb. rewrite Forall_forall in B. specialize (B b Hb).
    unfold byteb. lia. }
  rewrite D, <- L. fold (len (expand bs)). fold (len (expand bs)) in L.
  destruct (decode_data (len (expand bs)) (stream bs ++ rest)) as [[out f']|] eqn:E; [|reflexivity].
  cbn [bind]. rewrite chunked_ok, Hc, channels_ok.
  pose proof (overlap_short bs rest out f' V X B' E) as N. rewrite L in N.
  destruct (len out =? g_width s * g_height s * channels (g_type s)) eqn:Q; [|reflexivity].
  apply Z.eqb_eq in Q. exfalso. apply N. lia.
Qed.

(** A 4x2 palette sprite: literal, copy, literal of one byte, copy at full distance. *)
Example C41_example :
  let bs := [Lit [1; 2; 3]; Copy 3 2; Lit [9]; Copy 6 2] in
  let s := mk_gsprite 8 4 2 4 0 (-2) 5 in
  blocks_valid 0 bs /\ Forall (fun b => ~ self_overlapping b) bs
  /\ stream bs = [3; 1; 2; 3; 240; 3; 1; 9; 240; 6]
  /\ expand bs = [1; 2; 3; 1; 2; 9; 1; 2]
  /\ decode_sprite s 2 (stream bs ++ [77])
     = Some ([[[1]; [2]; [3]; [1]]; [[2]; [9]; [1]; [2]]], [77]).
Proof.
  cbn zeta. split; [cbn; lia|]. split; [repeat (apply Forall_cons; [cbn; lia|]); apply Forall_nil|].
  split; [reflexivity|]. split; reflexivity.
Qed.
Example C41_overlap_example :
  let bs := [Lit [7]; Copy 1 5] in
  let s := mk_gsprite 6 3 2 4 0 0 0 in
  blocks_valid 0 bs /\ Exists self_overlapping bs /\ expand bs = [7; 7; 7; 7; 7; 7]
  /\ stream bs = [1; 7; 216; 1] /\ decode_sprite s 2 (stream bs) = None.
Proof.
  cbn zeta. split; [cbn; lia|]. split; [apply Exists_cons_tl, Exists_cons_hd; cbn; lia|].
  split; [reflexivity|]. split; reflexivity.
Qed.

(** C42: a chunked sprite -- an offset table followed anywhere by the runs
    of each row -- is decoded to the image in which every pixel comes from
    the last run covering it and is transparent where no run does. *)
Theorem C42_chunked : forall s container bs rest rows offsets runs_data,
  let bpp := Z.to_nat (channels (g_type s)) in
  let wide := (2 <=? container) && (256 <? g_width s) in
  let long := (2 <=? container) && (65535 <? g_decomp s) in
  let data := concat (map (if long then le32 else le16) offsets) ++ runs_data in
  0 <= g_width s -> Z.of_nat (length rows) = g_height s -> chunked (g_type s) = true ->
  Forall (fun o => 0 <= o < (if long then 4294967296 else 65536)) offsets ->
  Forall2 (fun runs ofs => runs <> [] /\ Forall (run_fits wide bpp (g_width s)) runs
             /\ stands_at data (row_code wide runs) ofs) rows offsets ->
  blocks_valid 0 bs -> Forall (fun b => ~ self_overlapping b) bs ->
  expand bs = data -> g_decomp s = Z.of_nat (length data) ->
  exists im, decode_sprite s container (stream bs ++ rest) = Some (im, rest)
    /\ Forall2 (row_shows bpp (g_width s)) rows im.
Proof.
  intros s container bs rest rows offsets runs_data bpp wide long data Hw Hh Hc Ho Hr V NO Ex D.
  pose proof (channels_range (g_type s)) as Cr.
  destruct (rows_loop_ok container (g_width s) bpp data rows offsets Hw Hr) as (im & E & Sh).
  exists im. split; [|exact Sh]. unfold decode_sprite.
  pose proof (decode_data_stream bs rest V NO) as DD. rewrite Ex in DD.
  rewrite D. fold (len data). rewrite DD. cbn [bind].
  rewrite chunked_ok, Hc. unfold decode_chunked. fold long.
  assert (Lo : Z.to_nat (g_height s) = length offsets).
  { rewrite <- Hh. rewrite Nat2Z.id. exact (F2_len _ _ _ Hr). }
  rewrite Lo.
  assert (Ro : rd_n (if long then rd_I else rd_H) (length offsets) data = Some (offsets, runs_data)).
  { unfold data. pose proof (rd_offsets long offsets runs_data) as R. unfold offset_code in R.
    destruct long; apply R; exact Ho. }
  rewrite Ro. cbn [bind]. rewrite channels_ok. unfold bpp in E.
  rewrite Z2Nat.id in E by lia. rewrite E. reflexivity.
Qed.

(** Two rows, the second sharing nothing; two runs in the first row, the
    second run overwriting a pixel of the first. *)
Example C42_example :
  let s := mk_gsprite 17 5 2 12 0 0 0 in
  let rows := [[mk_run 0 [[1]; [2]]; mk_run 1 [[9]; [8]]]; [mk_run 4 [[7]]]] in
  let data := [4; 0; 12; 0; 2; 0; 1; 2; 130; 1; 9; 8; 129; 4; 7; 55; 66] in
  Forall2 (fun runs ofs => runs <> [] /\ Forall (run_fits false 1 5) runs
             /\ stands_at data (row_code false runs) ofs) rows [4; 12]
  /\ decode_sprite s 2 (17 :: data)
     = Some ([[[1]; [9]; [8]; [0]; [0]]; [[0]; [0]; [0]; [0]; [7]]], []).
Proof.
  cbn zeta. split; [|reflexivity].
  assert (P : forall c, 0 <= c < 256 -> length [c] = 1%nat /\ Forall (fun c => 0 <= c < 256) [c]).
  { intros c Hc. split; [reflexivity|constructor; [exact Hc|constructor]]. }
  constructor; [|constructor; [|constructor]].
  - split; [discriminate|]. split.
    + constructor; [|constructor; [|constructor]].
      * split; [cbn; lia|]. split; [cbn; lia|]. split; [cbn; lia|].
        cbn [r_pixels]. constructor; [apply P; lia|]. constructor; [apply P; lia|constructor].
      * split; [cbn; lia|]. split; [cbn; lia|]. split; [cbn; lia|].
        cbn [r_pixels]. constructor; [apply P; lia|]. constructor; [apply P; lia|constructor].
    + exists [4; 0; 12; 0], [129; 4; 7; 55; 66]. split; reflexivity.
  - split; [discriminate|]. split.
    + constructor; [|constructor].
      split; [cbn; lia|]. split; [cbn; lia|]. split; [cbn; lia|].
      cbn [r_pixels]. constructor; [apply P; lia|constructor].
    + exists [4; 0; 12; 0; 2; 0; 1; 2; 130; 1; 9; 8], [55; 66]. split; reflexivity.
Qed.

(** C43: the file names given to extracted sounds are pairwise different ... *)
Theorem C43_unique : forall ascii names ext l,
  sound_names ascii [] names ext = Some l -> NoDup l /\ length l = length names.
Proof.
  intros ascii names ext l E. destruct (sound_names_nodup _ _ _ _ _ E) as (A & _ & B). split; assumption.
Qed.
(** ... each request is answered with a name not used before, which is then
    marked as used ... *)
Theorem C43_fresh : forall index name ext tries u index',
  find_unique index name ext tries = Some (u, index') -> ~ In u index /\ index' = u :: index.
Proof.
  intros index name ext tries u index' E. destruct (find_unique_loop_some _ _ _ _ _ _ _ E) as (A & B & _).
  split; assumption.
Qed.
(** ... whatever the name in the file was, the result is a plain file name:
    a-z 0-9 _ - followed by the extension, so it cannot leave the output
    directory ... *)
Theorem C43_safe : forall ascii names ext l,
  sound_names ascii [] names ext = Some l ->
  Forall (fun u => exists base, u = base ++ 46 :: ext /\ Forall name_char base) l.
Proof.
  intros ascii names ext l E. apply sound_names_form in E. induction E as [|n u names l (i & Hi & ->) F IH].
  - constructor.
  - constructor; [|exact IH]. apply candidate_chars. lia.
Qed.
(** ... what the name is made from neither begins nor ends with - or _ ... *)
Theorem C43_trimmed : forall s first last,
  (forall r, sanitise s = first :: r -> first <> 45 /\ first <> 95) /\ (forall r, sanitise s = r ++ [last] -> last <> 45 /\ last <> 95).
Proof.
  assert (H : forall s c r, lstrip s = c :: r -> c <> 45 /\ c <> 95).
  { induction s as [|a s IH]; cbn [lstrip]; intros c r E; [discriminate|].
    destruct (is_strip a) eqn:A; [eauto|]. injection E as <- _. unfold is_strip in A. lia. }
  assert (K : forall s, exists l, s = l ++ lstrip s).
  { induction s as [|a s (l & IH)]; cbn [lstrip]; [now exists []|]. destruct (is_strip a); [|now exists []].
    exists (a :: l). cbn [app]. now rewrite <- IH. }
  intros s first last. unfold sanitise, strip.
  set (u := squash _ _). clearbody u. split; intros r E.
  - destruct (K (rev (lstrip u))) as (l & E'). apply (f_equal (@rev Z)) in E'. rewrite rev_involutive, rev_app_distr, E in E'.
    cbn [app] in E'. exact (H _ _ _ E').
  - apply (f_equal (@rev Z)) in E. rewrite rev_involutive, rev_app_distr in E. cbn [rev app] in E. exact (H _ _ _ E).
Qed.
(** ... and up to 100 sounds always get a name. *)
Theorem C43_total_partial : forall ascii names ext, (length names <= 100)%nat ->
  exists l, sound_names ascii [] names ext = Some l.
Proof. intros ascii names ext H. apply sound_names_total. cbn. exact H. Qed.
(** More than 100 sounds of one name cannot be extracted. *)
Theorem C43_limit_refuted : forall ascii name ext k, (100 < k)%nat ->
  sound_names ascii [] (repeat name k) ext = None.
Proof. exact (fun ascii name ext k => sound_names_limit ascii ext name k). Qed.

(** "Horn.wav", "HORN!", "../horn .wav" *)
Example C43_example :
  sound_names (fun s => s) [] [[72;111;114;110;46;119;97;118]; [72;79;82;78;33];
                               [46;46;47;104;111;114;110;32;46;119;97;118]] [119;97;118]
  = Some [[104;111;114;110;46;119;97;118]; [104;111;114;110;95;50;46;119;97;118];
          [104;111;114;110;95;51;46;119;97;118]].
Proof. reflexivity. Qed.

(** C56: on an extracted sprite sheet every sprite that is kept gets exactly
    one place, in order; with its margin of 5 pixels it lies inside the
    sheet; and no two of these boxes touch the same pixel. *)
Theorem C56_sheet : forall skipped sprites,
  Forall (fun s => 0 <= fst s /\ 0 <= snd s) sprites ->
  let '(W, H, _) := sheet_size sprites in
  let layout := sheet_layout skipped sprites in
  map fst layout = filter (fun j => negb (skipped j)) (seq 0 (length sprites))
  /\ (forall j x y w h, In (j, (x, y)) layout -> nth_error sprites j = Some (w, h) ->
        5 <= x /\ x + w + 5 <= W /\ 5 <= y /\ y + h + 5 <= H)
  /\ (forall j x y w h j' x' y' w' h',
        In (j, (x, y)) layout -> nth_error sprites j = Some (w, h) ->
        In (j', (x', y')) layout -> nth_error sprites j' = Some (w', h') -> j <> j' ->
        disjoint_rects (x - 5) (y - 5) (w + 10) (h + 10) (x' - 5) (y' - 5) (w' + 10) (h' + 10)).
Proof.
  intros skipped sprites F. destruct (sheet_size sprites) as [[W H] lo] eqn:E. cbn zeta.
  assert (F1 : Forall (fun s => 0 <= fst s) sprites) by (revert F; apply Forall_impl; tauto).
  unfold sheet_layout. rewrite E. cbn [snd].
  destruct (sheet_lines_spec _ _ _ _ _ _ _ (le_n _) E) as (_ & _ & L).
  assert (Ln : forall j s, nth_error sprites j = Some s -> (sheet_N * (j / sheet_N) < length sprites)%nat).
  { intros j s Hj. assert (N : nth_error sprites j <> None) by congruence. apply nth_error_Some in N.
    pose proof (Nat.mul_div_le j sheet_N ltac:(unfold sheet_N; lia)). lia. }
  assert (Hx : forall j x y, In (j, (x, y)) (sheet_place lo skipped 0 0 sprites) -> 5 <= x <= 5 + row_before sprites j).
  { intros j x y I. apply (sheet_place_x lo skipped sprites sprites 0 0 eq_refl F1) in I; [tauto|].
    intros N. exfalso. apply N. reflexivity. }
  assert (Hh : forall j w h, nth_error sprites j = Some (w, h) -> h <= maxz (map snd (row_of sprites (j / sheet_N)))).
  { intros j w h Hj. apply maxz_in. change h with (snd (w, h)). apply in_map. apply nth_error_row, Hj. }
  split; [apply sheet_place_index|]. split.
  - intros j x y w h I Ej. pose proof (Hx _ _ _ I) as X. apply sheet_place_y in I as [_ ->].
    destruct (L _ (Ln _ _ Ej)) as (L1 & L2 & L3 & _).
    pose proof (row_before_fits _ _ _ _ Ej F1). pose proof (Hh _ _ _ Ej). lia.
  - assert (Ord : forall j x y w h j' x' y' w' h',
        In (j, (x, y)) (sheet_place lo skipped 0 0 sprites) -> nth_error sprites j = Some (w, h) ->
        In (j', (x', y')) (sheet_place lo skipped 0 0 sprites) -> nth_error sprites j' = Some (w', h') -> (j < j')%nat ->
        x + w + 10 <= x' \/ y + h + 10 <= y').
    { intros j x y w h j' x' y' w' h' I Ej I' Ej' Lt.
      destruct (Nat.eq_dec (j / sheet_N) (j' / sheet_N)) as [Sm|Df].
      - left.
        (* the entry of j' comes after the entry of j *)
        assert (G : forall sps i x0, sps = skipn i sprites ->
          In (j, (x, y)) (sheet_place lo skipped i x0 sps) -> In (j', (x', y')) (sheet_place lo skipped i x0 sps) ->
          ((i mod sheet_N <> 0)%nat -> 5 <= x0 <= 5 + row_before sprites i) -> x + w + 10 <= x').
        { induction sps as [|[w0 h0] sps IH]; intros i x0 Es A B X0; [destruct A|].
          assert (Ei : nth_error sprites i = Some (w0, h0)).
          { pose proof (nth_error_skip i 0 sprites) as Q. rewrite <- Es, Nat.add_0_r in Q. symmetry. exact Q. }
          assert (Es' : sps = skipn (S i) sprites).
          { replace (S i) with (i + 1)%nat by lia. rewrite <- skipn_skipn', <- Es. reflexivity. }
          assert (W0 : 0 <= w0). { rewrite Forall_forall in F1. exact (F1 _ (nth_error_In _ _ Ei)). }
          cbn [sheet_place] in A, B.
          set (x1 := if Nat.eqb (i mod sheet_N) 0 then PADDING else x0) in *.
          assert (X1 : 5 <= x1 <= 5 + row_before sprites i).
          { unfold x1. destruct (Nat.eqb (i mod sheet_N) 0) eqn:Q.
            - apply Nat.eqb_eq in Q. rewrite (row_before_zero _ _ Q). unfold PADDING. lia.
            - apply Nat.eqb_neq in Q. apply X0, Q. }
          destruct (skipped i).
          - apply (IH (S i) x1 Es' A B). intros N. rewrite (row_before_next _ _ _ _ Ei N). lia.
          - assert (X2 : (S i mod sheet_N <> 0)%nat -> 5 <= x1 + w0 + 2 * PADDING <= 5 + row_before sprites (S i)).
            { intros N. rewrite (row_before_next _ _ _ _ Ei N). unfold PADDING. lia. }
            destruct A as [A|A].
            + apply pair_inj in A as [Ai A]. apply pair_inj in A as [Ax _]. subst i.
              destruct B as [B|B]; [apply pair_inj in B as [B _]; lia|].
              rewrite Ej in Ei. injection Ei as -> ->.
              assert (Nz : (S j mod sheet_N <> 0)%nat).
              { intros Z0. unfold sheet_N in *.
                pose proof (Nat.div_mod (S j) 8 ltac:(lia)). rewrite Z0 in H0.
                pose proof (Nat.div_mod j 8 ltac:(lia)). pose proof (Nat.mod_upper_bound j 8 ltac:(lia)).
                pose proof (Nat.div_mod j' 8 ltac:(lia)). pose proof (Nat.mod_upper_bound j' 8 ltac:(lia)). lia. }
              assert (Dv : (S j / sheet_N = j / sheet_N)%nat).
              { unfold sheet_N in *. pose proof (Nat.div_mod j 8 ltac:(lia)). pose proof (Nat.mod_upper_bound j 8 ltac:(lia)).
                pose proof (Nat.div_mod (S j) 8 ltac:(lia)). pose proof (Nat.mod_upper_bound (S j) 8 ltac:(lia)). lia. }
              destruct (sheet_place_x lo skipped sprites sps (S j) _ Es' F1 X2 _ _ _ B) as [_ K].
              specialize (K Nz). rewrite Dv in K. specialize (K (eq_sym Sm)). unfold PADDING in K. lia.
            + destruct B as [B|B].
              * apply pair_inj in B as [B _]. apply sheet_place_y in A as [A _]. lia.
              * exact (IH (S i) _ Es' A B X2). }
        apply (G sprites 0%nat 0 eq_refl I I'). intros N. exfalso. apply N. reflexivity.
      - right. apply sheet_place_y in I as [_ ->]. apply sheet_place_y in I' as [_ ->].
        assert (Lt' : (j / sheet_N < j' / sheet_N)%nat).
        { assert (j / sheet_N <= j' / sheet_N)%nat by (apply Nat.div_le_mono; [unfold sheet_N; lia|lia]). lia. }
        destruct (L _ (Ln _ _ Ej)) as (_ & _ & _ & L4). specialize (L4 _ Lt' (Ln _ _ Ej')).
        pose proof (Hh _ _ _ Ej). lia. }
    intros j x y w h j' x' y' w' h' I Ej I' Ej' Ne px py A B C D.
    destruct (Nat.lt_ge_cases j j') as [Lt|Ge].
    + destruct (Ord _ _ _ _ _ _ _ _ _ _ I Ej I' Ej' Lt); lia.
    + destruct (Ord _ _ _ _ _ _ _ _ _ _ I' Ej' I Ej ltac:(lia)); lia.
Qed.

Example C56_example :
  let sprites := [(3,4);(10,2);(1,1);(2,2);(5,5);(6,6);(7,7);(8,8);(9,3);(1,20)] in
  let sk := fun i => Nat.eqb i 2 in
  Forall (fun s => 0 <= fst s /\ 0 <= snd s) sprites
  /\ sheet_size sprites = (122, 48, [0; 18])
  /\ sheet_layout sk sprites
     = [(0%nat, (5, 5)); (1%nat, (18, 5)); (3%nat, (38, 5)); (4%nat, (50, 5)); (5%nat, (65, 5)); (6%nat, (81, 5));
        (7%nat, (98, 5)); (8%nat, (5, 23)); (9%nat, (24, 23))].
Proof.
  cbn zeta. split; [repeat (apply Forall_cons; [cbn; lia|]); apply Forall_nil|]. split; reflexivity.
Qed.

Print Assumptions C41_decompress_partial.
Print Assumptions C41_sprite_partial.
Print Assumptions C41_sound_partial.
Print Assumptions C41_overlapping_copy_refuted.
Print Assumptions C42_chunked.
Print Assumptions C43_unique.
Print Assumptions C43_fresh.
Print Assumptions C43_safe.
Print Assumptions C43_trimmed.
Print Assumptions C43_total_partial.
Print Assumptions C43_limit_refuted.
Print Assumptions C56_sheet.
