(** Proofs for DecodeModel: chunked (tile) sprites. *)
From Coq Require Import ZArith List Bool Lia.
From Verif Require Import Base BaseFacts DecodeModel SpecDecode DecodeProofs.
Import ListNotations.
Open Scope Z_scope.

Lemma at_app : forall pre piece post k, 0 <= k < len piece ->
  at_ (pre ++ piece ++ post) (len pre + k) = nth_error piece (Z.to_nat k).
Proof.
  intros pre piece post k H. unfold at_. pose proof (len_nonneg pre).
  assert (len pre + k <? 0 = false) as -> by lia.
  rewrite nth_error_app2 by (unfold len in *; lia).
  rewrite nth_error_app1 by (unfold len in *; lia).
  f_equal. unfold len in *. lia.
Qed.

Lemma frombuffer_app : forall pre piece post,
  frombuffer (pre ++ piece ++ post) (len pre) (len piece) = Some piece.
Proof.
  intros pre piece post. unfold frombuffer.
  pose proof (len_nonneg pre). pose proof (len_nonneg piece). pose proof (len_nonneg post).
  assert (E : len (pre ++ piece ++ post) = len pre + (len piece + len post)) by (rewrite !lenapp; reflexivity).
  destruct ((len (pre ++ piece ++ post) <? len pre) || (len (pre ++ piece ++ post) - len pre <? len piece)) eqn:Q;
    [lia|].
  rewrite !len_nat. rewrite skipn_app, skipn_all, Nat.sub_diag. cbn [skipn app].
  rewrite firstn_app, firstn_all, Nat.sub_diag. cbn [firstn]. rewrite app_nil_r. reflexivity.
Qed.

Lemma chop_concat : forall (ps : list (list Z)) k rest, Forall (fun p => length p = k) ps ->
  chop (length ps) k (concat ps ++ rest) = ps.
Proof.
  induction ps as [|p ps IH]; intros k rest H; [reflexivity|].
  inversion_clear H as [|? ? H1 H2]. cbn [length chop concat].
  rewrite <- app_assoc. rewrite firstn_app, skipn_app, H1, Nat.sub_diag.
  rewrite <- H1 at 1. rewrite firstn_all. rewrite <- H1 at 2. rewrite skipn_all.
  cbn [firstn skipn app]. rewrite app_nil_r. f_equal. apply IH, H2.
Qed.

Lemma concat_len : forall (ps : list (list Z)) k, Forall (fun p => length p = k) ps ->
  len (concat ps) = len ps * Z.of_nat k.
Proof.
  induction ps as [|p ps IH]; intros k H; [reflexivity|].
  inversion_clear H as [|? ? H1 H2]. cbn [concat]. rewrite lenapp, (IH k H2).
  unfold len. cbn [length]. lia.
Qed.

Lemma land128 : forall n last, 0 <= n < 128 ->
  negb (Z.land (n + (if last : bool then 128 else 0)) 128 =? 0) = last
  /\ Z.land (n + (if last then 128 else 0)) 127 = n.
Proof.
  intros n last H. split.
  - replace (n + (if last then 128 else 0)) with (Z.lor n (Z.shiftl (if last then 1 else 0) 7)).
    + rewrite Z.land_lor_distr_l.
      replace (Z.land n 128) with 0 by (symmetry; rewrite Z.land_comm; change 128 with (Z.shiftl 1 7);
        rewrite Z.land_comm; apply land_shift_0; lia).
      destruct last; reflexivity.
    + rewrite lor_shift by lia. change (2 ^ 7) with 128. destruct last; lia.
  - change 127 with (Z.ones 7). rewrite Z.land_ones by lia. change (2 ^ 7) with 128. destruct last; lia.
Qed.

(** What the chunk loop reads at a run. *)
Lemma run_header : forall wide last r bpp w pre post, run_fits wide bpp w r ->
  let data := pre ++ run_code wide last r ++ post in
  let n := len (r_pixels r) in
  (if wide then
     do b1 <- at_ data (len pre + 1); do b0 <- at_ data (len pre);
     do b3 <- at_ data (len pre + 3); do b2 <- at_ data (len pre + 2);
     Some (negb (Z.land b1 128 =? 0),
           Z.lor (Z.shiftl (Z.land b1 127) 8) b0,
           Z.lor (Z.shiftl b3 8) b2, len pre + 4)
   else
     do b0 <- at_ data (len pre); do b1 <- at_ data (len pre + 1);
     Some (negb (Z.land b0 128 =? 0), Z.land b0 127, b1, len pre + 2))
  = Some (last, n, r_skip r, len pre + (if wide then 4 else 2)).
Proof.
  intros wide last r bpp w pre post F. cbn zeta. destruct F as (F1 & F2 & F3 & F4).
  assert (A0 : at_ (pre ++ run_code wide last r ++ post) (len pre)
               = nth_error (run_code wide last r) 0).
  { rewrite <- (Z.add_0_r (len pre)). apply (at_app pre _ post 0). destruct wide; unfold len; cbn [run_code app length]; lia. }
  rewrite A0.
  assert (A : forall k, 0 <= k < (if wide then 4 else 2) ->
    at_ (pre ++ run_code wide last r ++ post) (len pre + k) = nth_error (run_code wide last r) (Z.to_nat k)).
  { intros k Hk. apply at_app. destruct wide; unfold len; cbn [run_code app length]; lia. }
  destruct wide.
  - rewrite !A by lia. change (Z.to_nat 1) with 1%nat. change (Z.to_nat 2) with 2%nat.
    change (Z.to_nat 3) with 3%nat. cbn [run_code app nth_error bind].
    change (len (r_pixels r)) with (Z.of_nat (length (r_pixels r))).
    set (n := Z.of_nat (length (r_pixels r))) in *.
    destruct (land128 (n / 256) last ltac:(lia)) as [L1 L2]. rewrite L1, L2.
    rewrite !(Z.lor_comm (Z.shiftl _ _)). rewrite !lor_shift by lia. change (2 ^ 8) with 256.
    replace (n mod 256 + n / 256 * 256) with n by lia.
    replace (r_skip r mod 256 + r_skip r / 256 * 256) with (r_skip r) by lia. reflexivity.
  - rewrite !A by lia. change (Z.to_nat 1) with 1%nat. change (Z.to_nat 2) with 2%nat.
    change (Z.to_nat 3) with 3%nat. cbn [run_code app nth_error bind].
    change (len (r_pixels r)) with (Z.of_nat (length (r_pixels r))).
    set (n := Z.of_nat (length (r_pixels r))) in *.
    destruct (land128 n last ltac:(lia)) as [L1 L2]. rewrite L1, L2. reflexivity.
Qed.

Lemma assign_run_ok : forall row skip b, 0 <= skip -> skip + len b <= len row ->
  assign_run row skip b
  = Some (firstn (Z.to_nat skip) row ++ b ++ skipn (Z.to_nat (skip + len b)) row).
Proof.
  intros row skip b H1 H2. unfold assign_run. cbn zeta. pose proof (len_nonneg b).
  rewrite !Z.min_l by lia. assert (skip + len b - skip =? len b = true) as -> by lia. reflexivity.
Qed.

Lemma Forall_covers_dec : forall x (l : list run), (exists b r a, l = b ++ r :: a /\ covers x r /\ Forall (fun r => ~ covers x r) a) \/ Forall (fun r => ~ covers x r) l.
Proof.
  intros x l. induction l as [|r l IH] using rev_ind; [right; constructor|].
  assert (D : covers x r \/ ~ covers x r).
  { unfold covers. destruct (Z_le_dec (r_skip r) x), (Z_lt_dec x (r_skip r + Z.of_nat (length (r_pixels r)))); lia. }
  destruct D as [D|D].
  - left. exists l, r, []. split; [reflexivity|]. split; [exact D|constructor].
  - destruct IH as [(b & r0 & a & -> & C & A)|IH].
    + left. exists b, r0, (a ++ [r]). split; [rewrite <- app_assoc; reflexivity|]. split; [exact C|].
      apply Forall_app. split; [exact A|constructor; [exact D|constructor]].
    + right. apply Forall_app. split; [exact IH|constructor; [exact D|constructor]].
Qed.

Lemma nth_error_firstn' : forall {A} n k (l : list A), (k < n)%nat -> nth_error (firstn n l) k = nth_error l k.
Proof.
  intros A; induction n; intros k l H; [lia|]. destruct l, k; try reflexivity; cbn; [].
  apply IHn. lia.
Qed.
Lemma nth_error_skipn' : forall {A} n k (l : list A), nth_error (skipn n l) k = nth_error l (n + k).
Proof.
  intros A; induction n; intros k l; [reflexivity|]. destruct l; [destruct k; reflexivity|]. apply IHn.
Qed.

Lemma shows_snoc_out : forall bpp l r x p, ~ covers x r -> shows bpp l x p -> shows bpp (l ++ [r]) x p.
Proof.
  intros bpp l r x p N [(b & r0 & a & E & C & A & P)|[F E]].
  - left. exists b, r0, (a ++ [r]). rewrite E, <- app_assoc. split; [reflexivity|].
    split; [exact C|]. split; [|exact P]. apply Forall_app. split; [exact A|constructor; [exact N|constructor]].
  - right. split; [|exact E]. apply Forall_app. split; [exact F|constructor; [exact N|constructor]].
Qed.

Lemma row_shows_snoc : forall bpp w l r row, row_shows bpp w l row ->
  0 <= r_skip r -> r_skip r + len (r_pixels r) <= w ->
  row_shows bpp w (l ++ [r])
    (firstn (Z.to_nat (r_skip r)) row ++ r_pixels r ++ skipn (Z.to_nat (r_skip r + len (r_pixels r))) row).
Proof.
  intros bpp w l r row [L S] H1 H2. unfold len in *.
  set (n := length (r_pixels r)) in *. set (s := r_skip r) in *.
  assert (Lf : length (firstn (Z.to_nat s) row) = Z.to_nat s) by (rewrite firstn_length; lia).
  split.
  - rewrite !app_length, Lf, skipn_length. fold n. lia.
  - intros x Hx. destruct (S x Hx) as (p & P1 & P2).
    destruct (Z_lt_dec x s) as [A|A]; [|destruct (Z_lt_dec x (s + Z.of_nat n)) as [B|B]].
    + exists p. split.
      * rewrite nth_error_app1 by lia. rewrite nth_error_firstn' by lia. exact P1.
      * apply shows_snoc_out; [|exact P2]. unfold covers. fold s. lia.
    + assert (Lt : (Z.to_nat (x - s) < n)%nat) by lia.
      destruct (nth_error (r_pixels r) (Z.to_nat (x - s))) as [q|] eqn:Q.
      2:{ apply nth_error_None in Q. fold n in Q. lia. }
      exists q. split.
      * rewrite nth_error_app2 by lia. rewrite nth_error_app1 by (rewrite Lf; fold n; lia).
        rewrite Lf. replace (Z.to_nat x - Z.to_nat s)%nat with (Z.to_nat (x - s)) by lia. exact Q.
      * left. exists l, r, []. split; [reflexivity|]. split; [unfold covers; fold s; fold n; lia|].
        split; [constructor|exact Q].
    + exists p. split.
      * rewrite nth_error_app2 by lia. rewrite nth_error_app2 by (rewrite Lf; fold n; lia).
        rewrite nth_error_skipn', Lf. fold n.
        replace (Z.to_nat (s + Z.of_nat n) + (Z.to_nat x - Z.to_nat s - n))%nat with (Z.to_nat x) by lia. exact P1.
      * apply shows_snoc_out; [|exact P2]. unfold covers. fold s. fold n. lia.
Qed.

Definition is_wide (container width : Z) : bool := (2 <=? container) && (256 <? width).

Lemma row_loop_step : forall fuel container width bpp r last pre post row,
  run_fits (is_wide container width) bpp width r -> len row = width ->
  row_loop (S fuel) container width (Z.of_nat bpp)
    (pre ++ run_code (is_wide container width) last r ++ post) (len pre) row
  = let row' := firstn (Z.to_nat (r_skip r)) row ++ r_pixels r
                 ++ skipn (Z.to_nat (r_skip r + len (r_pixels r))) row in
    if last then Some row'
    else row_loop fuel container width (Z.of_nat bpp)
           (pre ++ run_code (is_wide container width) last r ++ post)
           (len (pre ++ run_code (is_wide container width) last r)) row'.
Proof.
  intros fuel container width bpp r last pre post row F L. cbn [row_loop].
  change ((2 <=? container) && (256 <? width)) with (is_wide container width).
  set (wide := is_wide container width) in *.
  pose proof (run_header wide last r bpp width pre post F) as Hd. cbn zeta in Hd.
  rewrite Hd. cbn [bind].
  destruct F as (F1 & F2 & F3 & F4).
  assert (F5 : Forall (fun p => length p = bpp) (r_pixels r)).
  { revert F4. apply Forall_impl. intros p [E _]. exact E. }
  rewrite <- (concat_len _ _ F5).
  set (hd := if wide then [len (r_pixels r) mod 256; len (r_pixels r) / 256 + (if last then 128 else 0); r_skip r mod 256; r_skip r / 256]
             else [len (r_pixels r) + (if last then 128 else 0); r_skip r]).
  assert (Er : run_code wide last r = hd ++ concat (r_pixels r)) by (destruct wide; reflexivity).
  assert (Lh : len hd = if wide then 4 else 2) by (destruct wide; reflexivity).
  assert (Ed : pre ++ run_code wide last r ++ post = (pre ++ hd) ++ concat (r_pixels r) ++ post).
  { rewrite Er, <- !app_assoc. reflexivity. }
  rewrite Ed.
  rewrite <- Lh, <- lenapp. rewrite frombuffer_app. cbn [bind].
  rewrite len_nat, Nat2Z.id.
  pose proof (chop_concat (r_pixels r) bpp [] F5) as Ch. rewrite app_nil_r in Ch. rewrite Ch.
  rewrite assign_run_ok; [|exact F1|rewrite L; exact F2]. cbn [bind].
  rewrite <- lenapp. rewrite Er, <- !app_assoc. reflexivity.
Qed.

Lemma row_loop_runs : forall container width bpp runs before pre post row fuel,
  runs <> [] -> Forall (run_fits (is_wide container width) bpp width) runs ->
  row_shows bpp width before row -> (length runs <= fuel)%nat ->
  exists row', row_loop fuel container width (Z.of_nat bpp)
      (pre ++ row_code (is_wide container width) runs ++ post) (len pre) row = Some row'
    /\ row_shows bpp width (before ++ runs) row'.
Proof.
  intros container width bpp. set (wide := is_wide container width).
  induction runs as [|r runs IH]; intros before pre post row fuel NE F Sh Fu; [contradiction|].
  inversion_clear F as [|? ? F1 F2]. cbn [length] in Fu. destruct fuel as [|fuel]; [lia|].
  destruct runs as [|r2 runs].
  - cbn [row_code]. unfold wide. rewrite row_loop_step; [|exact F1|exact (proj1 Sh)].
    eexists. split; [reflexivity|]. apply row_shows_snoc; [exact Sh| |]; unfold len; unfold run_fits in F1; tauto.
  - change (row_code wide (r :: r2 :: runs)) with (run_code wide false r ++ row_code wide (r2 :: runs)).
    rewrite <- app_assoc.
    unfold wide at 1. rewrite row_loop_step; [|exact F1|exact (proj1 Sh)]. cbn zeta iota. fold wide.
    rewrite (app_assoc pre).
    destruct (IH (before ++ [r]) (pre ++ run_code wide false r) post
      (firstn (Z.to_nat (r_skip r)) row ++ r_pixels r ++ skipn (Z.to_nat (r_skip r + len (r_pixels r))) row)
      fuel) as (row' & E & S').
    + discriminate.
    + exact F2.
    + apply row_shows_snoc; [exact Sh| |]; unfold len; unfold run_fits in F1; tauto.
    + cbn [length] in *. lia.
    + exists row'. split; [exact E|]. rewrite <- app_assoc in S'. exact S'.
Qed.

Lemma row_shows_blank : forall bpp w, 0 <= w -> row_shows bpp w [] (repeat (repeat 0 bpp) (Z.to_nat w)).
Proof.
  intros bpp w H. split; [rewrite repeat_length; lia|].
  intros x Hx. exists (repeat 0 bpp). split.
  - rewrite (nth_error_nth' _ (repeat 0 bpp)) by (rewrite repeat_length; lia).
    rewrite nth_repeat. reflexivity.
  - right. split; [constructor|reflexivity].
Qed.

Lemma run_code_len : forall wide last r, (2 <= length (run_code wide last r))%nat.
Proof. intros [] last r; cbn [run_code app length]; lia. Qed.
Lemma row_code_len : forall wide runs, (length runs <= length (row_code wide runs))%nat.
Proof.
  intros wide; induction runs as [|r [|r2 runs] IH]; [cbn; lia| |].
  - cbn [row_code]. pose proof (run_code_len wide true r). cbn [length]. lia.
  - change (row_code wide (r :: r2 :: runs)) with (run_code wide false r ++ row_code wide (r2 :: runs)).
    rewrite app_length. pose proof (run_code_len wide false r). cbn [length] in *. lia.
Qed.

Lemma rows_loop_ok : forall container width bpp data rows offsets, 0 <= width ->
  Forall2 (fun runs ofs => runs <> [] /\ Forall (run_fits (is_wide container width) bpp width) runs
             /\ stands_at data (row_code (is_wide container width) runs) ofs) rows offsets ->
  exists im, rows_loop container width (Z.of_nat bpp) data offsets = Some im
    /\ Forall2 (row_shows bpp width) rows im.
Proof.
  intros container width bpp data rows offsets Hw H.
  induction H as [|runs ofs rows offsets H HF IH]; [exists []; split; [reflexivity|constructor]|].
  destruct IH as (im & E & Sm). destruct H as (NE & F & pre & post & Ed & Ep).
  destruct (row_loop_runs container width bpp runs [] pre post
    (repeat (repeat 0 bpp) (Z.to_nat width)) (S (length data)) NE F (row_shows_blank bpp width Hw)) as (row & E1 & S1).
  { rewrite Ed, !app_length. pose proof (row_code_len (is_wide container width) runs). lia. }
  exists (row :: im). split; [|constructor; [exact S1|exact Sm]].
  cbn [rows_loop]. rewrite Nat2Z.id. rewrite <- Ep. rewrite <- Ed in E1.
  change (Z.of_nat (length pre)) with (len pre). rewrite E1. cbn [bind]. rewrite E. reflexivity.
Qed.

Definition in_range (long : bool) (o : Z) : Prop := 0 <= o < (if long then 4294967296 else 65536).
Definition offset_code (long : bool) (o : Z) : list Z := if long then le32 o else le16 o.

Lemma rd_offsets : forall long offsets rest, Forall (in_range long) offsets ->
  rd_n (if long then rd_I else rd_H) (length offsets)
    (concat (map (offset_code long) offsets) ++ rest) = Some (offsets, rest).
Proof.
  intros long; induction offsets as [|o offs IH]; intros rest F; [reflexivity|].
  inversion_clear F as [|? ? F1 F2]. cbn [length rd_n map concat]. rewrite <- app_assoc.
  assert (E : (if long then rd_I else rd_H) (offset_code long o ++ (concat (map (offset_code long) offs) ++ rest))
              = Some (o, concat (map (offset_code long) offs) ++ rest)).
  { unfold in_range in F1. destruct long.
    - apply rd_I_pack. apply pack_I_ok. exact F1.
    - apply rd_H_pack. apply pack_H_ok. exact F1. }
  rewrite E. cbn [bind]. rewrite (IH rest F2). reflexivity.
Qed.

(** Fuel is never exhausted in the chunk loop. *)
Lemma at_some : forall d o v, at_ d o = Some v -> 0 <= o < len d.
Proof.
  intros d o v. unfold at_. destruct (o <? 0) eqn:Q; [discriminate|]. intros E.
  assert (H : nth_error d (Z.to_nat o) <> None) by congruence. apply nth_error_Some in H. unfold len. lia.
Qed.
Lemma at_byte : forall d o v, bytesb d = true -> at_ d o = Some v -> 0 <= v < 256.
Proof.
  intros d o v B E. unfold at_ in E. destruct (o <? 0); [discriminate|]. apply nth_error_In in E.
  unfold bytesb in B. rewrite forallb_forall in B. apply B in E. unfold byteb in E. lia.
Qed.

Lemma row_loop_fuel : forall fuel fuel' container width bpp data ofs row,
  bytesb data = true -> 0 <= bpp ->
  len data - ofs < Z.of_nat fuel -> len data - ofs < Z.of_nat fuel' ->
  (0 < fuel)%nat -> (0 < fuel')%nat ->
  row_loop fuel container width bpp data ofs row = row_loop fuel' container width bpp data ofs row.
Proof.
  induction fuel as [|fuel IH]; intros fuel' container width bpp data ofs row B P H H' Z1 Z2; [lia|].
  destruct fuel' as [|fuel']; [lia|]. cbn [row_loop].
  assert (Main : forall (hdr : option (bool * Z * Z * Z)),
    (forall fin n skip o, hdr = Some (fin, n, skip, o) -> 0 <= n /\ ofs + 2 <= o <= len data + 1) ->
    (do (is_final, length, skip, ofs0) <- hdr;
     let byte_length := length * bpp in
     do b <- frombuffer data ofs0 byte_length;
     do row0 <- assign_run row skip (chop (Z.to_nat length) (Z.to_nat bpp) b);
     if is_final : bool then Some row0 else row_loop fuel container width bpp data (ofs0 + byte_length) row0)
    = (do (is_final, length, skip, ofs0) <- hdr;
     let byte_length := length * bpp in
     do b <- frombuffer data ofs0 byte_length;
     do row0 <- assign_run row skip (chop (Z.to_nat length) (Z.to_nat bpp) b);
     if is_final then Some row0 else row_loop fuel' container width bpp data (ofs0 + byte_length) row0)).
  { intros [[[[fin n] skip] o]|] K; [|reflexivity]. cbn [bind]. destruct (K _ _ _ _ eq_refl) as [K1 K2].
    destruct (frombuffer data o (n * bpp)) as [b|] eqn:FB; [|reflexivity]. cbn [bind].
    destruct (assign_run _ _ _) as [row'|]; [|reflexivity]. cbn [bind]. destruct fin; [reflexivity|].
    assert (0 <= n * bpp) by (apply Z.mul_nonneg_nonneg; lia).
    unfold frombuffer in FB.
    destruct ((len data <? o) || (len data - o <? n * bpp)) eqn:Q; [discriminate|].
    apply IH; try assumption; lia. }
  apply Main. intros fin n skip o E.
  destruct ((2 <=? container) && (256 <? width)).
  - destruct (at_ data (ofs + 1)) as [b1|] eqn:E1; [|discriminate].
    destruct (at_ data ofs) as [b0|] eqn:E0; [|discriminate].
    destruct (at_ data (ofs + 3)) as [b3|] eqn:E3; [|discriminate].
    destruct (at_ data (ofs + 2)) as [b2|] eqn:E2; [|discriminate].
    cbn [bind] in E. apply some_inj in E. apply pair_inj in E as [E Eo]. apply pair_inj in E as [E Es].
    apply pair_inj in E as [Ef En]. rewrite <- En, <- Eo.
    pose proof (at_some _ _ _ E3). pose proof (at_byte _ _ _ B E1). pose proof (at_byte _ _ _ B E0).
    split; [|lia]. apply Z.lor_nonneg. split; [apply Z.shiftl_nonneg; apply Z.land_nonneg; lia|lia].
  - destruct (at_ data ofs) as [b0|] eqn:E0; [|discriminate].
    destruct (at_ data (ofs + 1)) as [b1|] eqn:E1; [|discriminate].
    cbn [bind] in E. injection E as <- <- <- <-.
    pose proof (at_some _ _ _ E1). pose proof (at_byte _ _ _ B E0).
    split; [apply Z.land_nonneg; lia|lia].
Qed.
