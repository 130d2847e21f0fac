(** C62: the pictures of buildings on the tiles of an industry. *)
From Coq Require Import ZArith List Bool Lia FinFun.
From Verif Require Import Base BaseFacts RecordsModel ContainerProofs IdMapProofs IndustryModel SpecIndustry IndustryProofs IndustryProofs2.
Import ListNotations.
Open Scope Z_scope.

(** A building covers at least one tile. *)
Definition sized (b : building) : Prop := 1 <= b_w b /\ 1 <= b_h b /\ 0 <= b_height b.

(** Cutting up never fails. *)
Theorem C62_total : forall b, sized b -> exists tl sl, building_sprites b = Some (tl, sl).
Proof. intros b (W & H & B). destruct (building_spec b W H B) as ([tl sl] & es & E & _). eauto. Qed.

(** Every pixel of the picture above the building's ground is shown by
    exactly one piece; the piece has a tile, one of the building's, and
    drawing the piece on that tile puts the pixel where drawing the whole
    picture on the front tile would. *)
Theorem C62_pieces : forall b tl sl px py, sized b -> building_sprites b = Some (tl, sl) -> over_ground b px -> 0 <= py < b_height b ->
  exists n q t, nth_error sl n = Some q /\ shows b q px py /\ In (t, Z.of_nat n) tl /\ own_tile b t
    /\ appears b q t px py = belongs b px py
    /\ (forall n' q', nth_error sl n' = Some q' -> shows b q' px py -> n' = n)
    /\ (forall t', In (t', Z.of_nat n) tl -> t' = t).
Proof.
  intros b tl sl px py (W & H & B) E OG PY. destruct (building_spec b W H B) as (st & es & E' & R & F & C & U). rewrite E in E'. apply some_inj in E'. subst st.
  destruct (par_exists b px W H OG) as (p & P & PX). destruct (C p py P PY) as (e & I & Fe & Re). apply In_nth_error in I as [n I]. destruct e as [t q].
  destruct (rep_index _ _ _ _ _ R I) as [T Q]. cbn [fst snd] in T, Q. exists n, q, t. split; [exact Q|]. split.
  { split; [|exact Re]. destruct Fe as (k & _ & _ & _ & _ & X & Wd & _). cbn [snd] in X, Wd. rewrite X, Wd. lia. }
  split; [exact T|]. split; [exact (par_tile b p (t, q) W H P Fe)|]. split; [exact (par_place b p (t, q) px py P Fe)|]. split.
  - intros n' q' N' [SX SY]. destruct (rep_entry _ _ _ _ R N') as [t' I']. destruct (F _ (nth_error_In _ _ I')) as (p' & P' & F').
    assert (p' = p) as ->. { apply (same_par b p' p px P' P); [|exact PX]. destruct F' as (k & _ & _ & _ & _ & X & Wd & _). cbn [snd] in X, Wd. rewrite X, Wd in SX. lia. }
    exact (U p py n' n (t', q') (t, q) I' I F' Fe SY Re).
  - intros t' I'. destruct (rep_tile _ _ _ _ R I') as (q' & Q' & _). rewrite Nat2Z.id in Q'. rewrite I in Q'. now injection Q'.
Qed.

(** Pieces show nothing else: no columns beside the ground, no rows outside
    the picture; and none is empty. *)
Theorem C62_only : forall b tl sl n q, sized b -> building_sprites b = Some (tl, sl) -> nth_error sl n = Some q ->
  0 < q_h q /\ 0 < q_w q /\ (forall px py, shows b q px py -> over_ground b px /\ 0 <= py < b_height b).
Proof.
  intros b tl sl n q (W & H & B) E Q. destruct (building_spec b W H B) as (st & es & E' & R & F & _). rewrite E in E'. apply some_inj in E'. subst st.
  destruct (rep_entry _ _ _ _ R Q) as [t I]. destruct (F _ (nth_error_In _ _ I)) as (p & P & k & _ & _ & _ & _ & X & Wd & _ & _ & Y1 & Y2 & Y3 & _).
  cbn [snd] in *. split; [exact Y2|]. split.
  - rewrite Wd. apply in_pars in P as [(i & _ & ->) | [-> | (i & _ & ->)]]; reflexivity.
  - intros px py [SX SY]. split; [|lia]. apply (par_over b p px P); auto. lia.
Qed.

(** Each tile has at most one piece, each piece exactly one tile. *)
Theorem C62_tiles : forall b tl sl, sized b -> building_sprites b = Some (tl, sl) ->
  NoDup (map fst tl) /\ map snd tl = map Z.of_nat (seq 0 (length sl)) /\ (forall t n, In (t, n) tl -> own_tile b t).
Proof.
  intros b tl sl (W & H & B) E. split; [exact (tiles_nodup b tl sl W H B E)|]. split.
  - destruct (building_spec b W H B) as (st & es & E' & R & _). rewrite E in E'. apply some_inj in E'. subst st. destruct R as (_ & T & S). cbn [fst snd] in T, S.
    rewrite T, S, map_length. assert (G : forall k, map snd (combine (map fst es) (map Z.of_nat (seq k (length es)))) = map Z.of_nat (seq k (length es))).
    { clear. induction es as [|e es IH]; intros k; cbn [map length seq combine snd]; [reflexivity|]. f_equal. apply IH. }
    apply G.
  - intros t n I. exact (proj1 (tiles_own b tl sl t n W H B E I)).
Qed.

(** The game clips what is too high above a tile: pieces are at most 231
    pixels high, except the ones on the tiles of the back edges, behind which
    the building has no tile left. *)
Theorem C62_height : forall b tl sl t n q, sized b -> building_sprites b = Some (tl, sl) -> In (t, n) tl -> nth_error sl (Z.to_nat n) = Some q ->
  q_h q <= 231 \/ fst t = 1 \/ snd t = 1.
Proof.
  intros b tl sl t n q (W & H & B) E I Q. destruct (building_spec b W H B) as (st & es & E' & R & F & _). rewrite E in E'. apply some_inj in E'. subst st.
  destruct (rep_tile _ _ _ _ R I) as (q' & Q' & _). destruct (rep_index _ _ _ _ _ R Q') as [_ Q2]. cbn [snd] in Q2. rewrite Q in Q2. apply some_inj in Q2. subst q'.
  destruct (F _ (nth_error_In _ _ Q')) as (p & P & k & _ & T & _ & _ & _ & _ & _ & _ & _ & _ & _ & Hh). cbn [fst snd] in *. rewrite T. cbn [fst snd]. exact Hh.
Qed.

(** ---- layouts ---- *)
(** The buildings are as wide as they are deep (see C62_size_refuted). *)
Definition squares (bs : nat -> building) (ls : list (list (Z * Z * nat))) : Prop :=
  forall l e, In l ls -> In e l -> sized (bs (snd e)) /\ b_h (bs (snd e)) = b_w (bs (snd e)).
(** The layout lies within the 256 columns relative_pos tells apart. *)
Definition fits (bs : nat -> building) (l : list (Z * Z * nat)) : Prop :=
  forall x0 y0 b, In (x0, y0, b) l -> 0 <= x0 /\ x0 + b_w (bs b) <= 256.
Definition disjoint (bs : nat -> building) (l : list (Z * Z * nat)) : Prop :=
  forall i j x0 y0 b x1 y1 c p, nth_error l i = Some (x0, y0, b) -> nth_error l j = Some (x1, y1, c) ->
    stands_on (bs b) x0 y0 p -> stands_on (bs c) x1 y1 p -> i = j.

Lemma squares_square bs ls : squares bs ls -> Forall (Forall (fun e => square (bs (snd e)))) ls.
Proof. intros S. apply Forall_forall. intros l L. apply Forall_forall. intros e I. destruct (S l e L I) as [(A & B & C) D]. split; [exact A|]. split; [exact D|exact C]. Qed.
Lemma good0 bs : good bs ([None], []).
Proof. split; [reflexivity|]. intros b tl sofs H. discriminate. Qed.
Lemma claimed_stands b x0 y0 p : b_h b = b_w b -> In p (claimed b x0 y0) <-> stands_on b x0 y0 p.
Proof. intros H. rewrite in_claimed. unfold stands_on. now rewrite H. Qed.

Lemma graphics_spec bs ls sprites r : squares bs ls -> industry_graphics bs ls = Some (sprites, r) ->
  exists st, fst st = sprites /\ good bs st /\ Forall2 (fun l x => exists As tiles, tiles = concat As /\ x = (switch_ranges tiles, claims bs l)
    /\ NoDup (claims bs l) /\ incl (map fst tiles) (claims bs l) /\ NoDup (map fst tiles) /\ Forall2 (added bs st) l As) ls r.
Proof.
  intros S E. unfold industry_graphics in E. destruct (layouts bs ([None], []) ls) as [[st r']|] eqn:L; [cbn [bind] in E|discriminate]. apply some_inj in E. apply pair_inj in E as [<- <-].
  destruct (layouts_spec bs ls _ _ _ (squares_square _ _ S) (good0 bs) L) as (G & _ & F). exists st. auto.
Qed.

(** An industry lists, for each layout, exactly the tiles its buildings stand
    on, each once; buildings of one layout do not overlap; tiles without a
    piece get sprite 0, which is empty. *)
Theorem C62_layout : forall bs ls sprites r, squares bs ls -> industry_graphics bs ls = Some (sprites, r) ->
  nth_error sprites 0 = Some None /\ length r = length ls /\
  forall i l, nth_error ls i = Some l -> exists ranges occ, nth_error r i = Some (ranges, occ)
    /\ NoDup occ /\ disjoint bs l
    /\ (forall p, In p occ <-> exists x0 y0 b, In (x0, y0, b) l /\ stands_on (bs b) x0 y0 p)
    /\ (fits bs l -> NoDup (map fst ranges) /\ forall k m, In (k, m) ranges -> exists p, In p occ /\ k = relative_pos p /\ 0 < m < len sprites).
Proof.
  intros bs ls sprites r S E. destruct (graphics_spec _ _ _ _ S E) as (st & <- & [G0 G] & F). split; [exact G0|]. split; [clear - F; induction F; cbn; auto|].
  intros i l L. destruct (forall2_nth _ _ _ F i l L) as ([ranges occ] & R & As & tiles & T & X & N & I & NT & FA). apply pair_inj in X as [-> ->].
  exists (switch_ranges tiles), (claims bs l). split; [exact R|]. split; [exact N|].
  assert (SQ : forall x0 y0 b, In (x0, y0, b) l -> sized (bs b) /\ b_h (bs b) = b_w (bs b)) by (intros x0 y0 b J; exact (S l (x0, y0, b) (nth_error_In _ _ L) J)).
  assert (CL : forall p, In p (claims bs l) <-> exists x0 y0 b, In (x0, y0, b) l /\ stands_on (bs b) x0 y0 p).
  { intros p. unfold claims. rewrite in_flat_map. split.
    - intros ([[x0 y0] b] & J & K). cbn [fst snd] in K. exists x0, y0, b. split; [exact J|]. apply claimed_stands in K; [exact K|apply (SQ _ _ _ J)].
    - intros (x0 & y0 & b & J & K). exists (x0, y0, b). split; [exact J|]. cbn [fst snd]. apply claimed_stands; [apply (SQ _ _ _ J)|exact K]. }
  split.
  { intros a c x0 y0 b x1 y1 d p A C P1 P2. eapply (nodup_flat _ l a c _ _ p N A C); cbn [fst snd]; apply claimed_stands; auto.
    - apply (SQ _ _ _ (nth_error_In _ _ A)).
    - apply (SQ _ _ _ (nth_error_In _ _ C)). }
  split; [exact CL|]. intros FT.
  assert (BD : forall k, In k (map fst tiles) -> 0 <= fst k < 256).
  { intros k K. apply I, CL in K as (x0 & y0 & b & J & [K _]). pose proof (FT _ _ _ J). lia. }
  destruct (switch_ranges_spec tiles NT BD) as [SR ND]. split; [exact ND|].
  intros k m K. rewrite SR in K. apply in_map_iff in K as ([p n] & K & J). cbn [fst snd] in K. apply pair_inj in K as [<- <-].
  exists p. split; [apply I; exact (in_map fst _ _ J)|]. split; [reflexivity|].
  (* the number of a piece *)
  rewrite T in J. apply in_concat_nth in J as (a & A & HA & J). destruct (forall2_nth2 _ _ _ FA a A HA) as ([[x0 y0] b] & He & tl & sl & B & KA & PA).
  assert (IK : In p (map fst A)) by exact (in_map fst _ _ J). rewrite KA in IK. apply in_map_iff in IK as ([t n'] & Et & It). cbn [fst] in Et.
  destruct (PA t n' It) as (m & M & M0 & Q). rewrite Et in M.
  assert (m = n) as ->.
  { assert (IT : In (p, m) tiles /\ In (p, n) tiles) by (rewrite T; split; apply in_concat; exists A; split; auto; exact (nth_error_In _ _ HA)).
    destruct IT as [I1 I2]. pose proof (Ing pos_eqb pos_eqb_eq tiles p m NT I1) as D1. pose proof (Ing pos_eqb pos_eqb_eq tiles p n NT I2) as D2. congruence. }
  destruct (SQ _ _ _ (nth_error_In _ _ He)) as [(W & H & HB) _]. destruct (tiles_own _ _ _ _ _ W H HB B It) as (_ & Bn & _).
  destruct (nth_error sl (Z.to_nat n')) as [q|] eqn:Hq; [|apply nth_error_None in Hq; unfold len in Bn; lia]. specialize (Q q eq_refl). split.
  - destruct (Z.eq_dec n 0) as [-> |]; [|lia]. change (Z.to_nat 0) with 0%nat in Q. rewrite G0 in Q. discriminate.
  - assert (Z.to_nat n < length (fst st))%nat by (apply nth_error_Some; congruence). unfold len. lia.
Qed.

(** The picture of every placed building appears, pixel by pixel, where it
    belongs: exactly one tile of the building gets a piece showing the pixel,
    and it puts it where the whole picture, drawn on the front tile, has it. *)
Theorem C62_drawn : forall bs ls sprites r i l ranges occ x0 y0 b px py, squares bs ls -> industry_graphics bs ls = Some (sprites, r) ->
  nth_error ls i = Some l -> nth_error r i = Some (ranges, occ) -> fits bs l -> In (x0, y0, b) l ->
  over_ground (bs b) px -> 0 <= py < b_height (bs b) ->
  exists p m q, stands_on (bs b) x0 y0 p /\ dict_get Z.eqb ranges (relative_pos p) = Some m /\ nth_error sprites (Z.to_nat m) = Some (Some q)
    /\ shows (bs b) q px py /\ appears (bs b) q p px py = belongs_at (bs b) x0 y0 px py
    /\ (forall p' m' q', stands_on (bs b) x0 y0 p' -> dict_get Z.eqb ranges (relative_pos p') = Some m' -> nth_error sprites (Z.to_nat m') = Some (Some q') ->
          shows (bs b) q' px py -> p' = p).
Proof.
  intros bs ls sprites r i l ranges occ x0 y0 b px py S E L R FT IB OG PY. destruct (graphics_spec _ _ _ _ S E) as (st & <- & [G0 G] & F).
  destruct (forall2_nth _ _ _ F i l L) as (x & R' & As & tiles & T & X & N & I & NT & FA). rewrite R in R'. apply some_inj in R'. subst x. apply pair_inj in X as [-> ->].
  assert (SQ : forall x0 y0 b, In (x0, y0, b) l -> sized (bs b) /\ b_h (bs b) = b_w (bs b)) by (intros u v w J; exact (S l (u, v, w) (nth_error_In _ _ L) J)).
  assert (BD : forall k, In k (map fst tiles) -> 0 <= fst k < 256).
  { intros k K. apply I in K. unfold claims in K. apply in_flat_map in K as ([[u v] w] & J & K). cbn [fst snd] in K. apply in_claimed in K as [K _]. pose proof (FT _ _ _ J). lia. }
  destruct (switch_ranges_spec tiles NT BD) as [SR ND].
  assert (GET : forall p m, In (p, m) tiles -> dict_get Z.eqb (switch_ranges tiles) (relative_pos p) = Some m).
  { intros p m J. apply (Ing Z.eqb Z.eqb_eq); [exact ND|]. rewrite SR. apply in_map_iff. exists (p, m). split; [reflexivity|exact J]. }
  apply In_nth_error in IB as [a Ha]. destruct (SQ _ _ _ (nth_error_In _ _ Ha)) as [SZ HW]. destruct SZ as (W & H & HB).
  destruct (forall2_nth _ _ _ FA a _ Ha) as (A & HA & tl & sl & B & KA & PA).
  assert (AT : forall e, In e A -> In e tiles) by (intros e J; rewrite T; apply in_concat; exists A; split; [exact (nth_error_In _ _ HA)|exact J]).
  destruct (C62_pieces (bs b) tl sl px py (conj W (conj H HB)) B OG PY) as (n & q & t & Hn & Sh & It & OT & AP & U & _).
  destruct (PA t _ It) as (m & M & M0 & Q). rewrite Nat2Z.id in Q. specialize (Q q Hn).
  exists (shift x0 y0 t), m, q. split; [unfold shift, stands_on; destruct OT; cbn [fst snd]; lia|]. split; [apply GET, AT, M|]. split; [exact Q|]. split; [exact Sh|]. split.
  - clear - AP. unfold appears, belongs, belongs_at, screen, shift in *. cbn [fst snd] in *. apply pair_inj in AP as [A1 A2]. f_equal; lia.
  - intros p' m' q' ST' D' Q' Sh'. apply dget_In in D'. rewrite SR in D'. apply in_map_iff in D' as ([p2 m2] & K & J). cbn [fst snd] in K. apply pair_inj in K as [K ->].
    assert (p2 = p') as ->. { pose proof (BD _ (in_map fst _ _ J)) as B2. cbn [fst] in B2. destruct ST' as [B1 _]. pose proof (FT _ _ _ (nth_error_In _ _ Ha)). unfold key, relative_pos in K. destruct p2, p'. cbn [fst snd] in *. f_equal; lia. }
    (* the tile belongs to this building *)
    assert (IA : In (p', m') A).
    { rewrite T in J. apply in_concat_nth in J as (c & C & HC & J). destruct (forall2_nth2 _ _ _ FA c C HC) as ([[x1 y1] d] & Hd & tl' & sl' & B' & KC & _).
      assert (c = a) as ->; [|assert (C = A) as <- by congruence; exact J]. apply (nodup_flat _ l c a _ _ p' N Hd Ha); cbn [fst snd].
      - assert (IK : In p' (map fst C)) by exact (in_map fst _ _ J). rewrite KC in IK. apply in_map_iff in IK as ([t' n'] & <- & It'). cbn [fst].
        destruct (SQ _ _ _ (nth_error_In _ _ Hd)) as [(W' & H' & HB') HW']. destruct (tiles_own _ _ _ _ _ W' H' HB' B' It') as ([O1 O2] & _). apply in_claimed. unfold shift. cbn [fst snd]. lia.
      - apply claimed_stands; auto. }
    assert (IK : In p' (map fst A)) by exact (in_map fst _ _ IA). rewrite KA in IK. apply in_map_iff in IK as ([t' n'] & Et & It'). cbn [fst] in Et.
    destruct (PA t' n' It') as (m2 & M2 & _ & Q2). rewrite Et in M2.
    assert (m2 = m') as ->. { pose proof (Ing pos_eqb pos_eqb_eq tiles p' m2 NT (AT _ M2)) as D1. pose proof (Ing pos_eqb pos_eqb_eq tiles p' m' NT (AT _ IA)) as D2. congruence. }
    destruct (tiles_own _ _ _ _ _ W H HB B It') as (_ & Bn & _).
    destruct (nth_error sl (Z.to_nat n')) as [q2|] eqn:Hq2; [|apply nth_error_None in Hq2; unfold len in Bn; lia]. specialize (Q2 q2 eq_refl). rewrite Q' in Q2. injection Q2 as <-.
    pose proof (U _ _ Hq2 Sh') as En. assert (n' = Z.of_nat n) by lia. subst n'.
    rewrite <- Et. f_equal. pose proof (C62_tiles (bs b) tl sl (conj W (conj H HB)) B) as (_ & TS & _).
    destruct (C62_pieces (bs b) tl sl px py (conj W (conj H HB)) B OG PY) as (n2 & q3 & t3 & Hn3 & Sh3 & It3 & _ & _ & U3 & V3).
    assert (n = n2) as -> by exact (U3 n q Hn Sh). rewrite (V3 t It), (V3 t' It'). reflexivity.
Qed.

(** Layouts of buildings that do not overlap are accepted. *)
Lemma nodup_claims bs l : disjoint bs l -> (forall x0 y0 b, In (x0, y0, b) l -> b_h (bs b) = b_w (bs b)) -> NoDup (claims bs l).
Proof.
  induction l as [|[[x0 y0] b] l IH]; intros D SQ; cbn [claims flat_map]; [constructor|]. apply nodup_app; [apply nodup_claimed| |].
  - apply IH; [|intros u v w J; apply (SQ u v w); now right]. intros a c u v w u' v' w' p A C P1 P2. assert (S a = S c) as Q by exact (D (S a) (S c) u v w u' v' w' p A C P1 P2). now injection Q.
  - intros p J K. cbn [fst snd] in J. apply in_flat_map in K as ([[x1 y1] c] & L & K). cbn [fst snd] in K. apply claimed_stands in J; [|apply (SQ x0 y0 b); now left]. apply claimed_stands in K; [|apply (SQ x1 y1 c); now right].
    apply In_nth_error in L as [n L]. assert (0%nat = S n) as Q by exact (D 0%nat (S n) x0 y0 b x1 y1 c p eq_refl L J K). discriminate.
Qed.
Lemma place_total bs st tiles occ x0 y0 b : sized (bs b) -> NoDup (occ ++ claimed (bs b) x0 y0) ->
  exists st' tiles', place bs st (tiles, occ) (x0, y0, b) = Some (st', (tiles', occ ++ claimed (bs b) x0 y0)).
Proof.
  intros SZ N. unfold place. cbn [fst snd]. destruct (dict_get Nat.eqb (snd st) b) as [[tl sofs]|].
  - cbn [bind]. rewrite occupy_total by exact N. cbn [bind]. eauto.
  - destruct (C62_total _ SZ) as (tl & sl & ->). cbn [bind]. rewrite occupy_total by exact N. cbn [bind]. eauto.
Qed.
Lemma place_all_total bs : forall l st tiles occ, (forall x0 y0 b, In (x0, y0, b) l -> sized (bs b)) -> NoDup (occ ++ claims bs l) ->
  exists st' r, place_all bs st (tiles, occ) l = Some (st', r).
Proof.
  induction l as [|[[x0 y0] b] l IH]; intros st tiles occ SZ N; cbn [place_all]; [eauto|]. cbn [claims flat_map] in N. cbn [fst snd] in N. rewrite app_assoc in N.
  destruct (place_total bs st tiles occ x0 y0 b) as (st' & tiles' & ->); [apply (SZ x0 y0 b); now left| |].
  - clear - N. induction (occ ++ claimed (bs b) x0 y0) as [|u v IHv]; [constructor|]. cbn [app] in N. inversion N; subst. constructor; [intros J; apply H1; apply in_or_app; now left|auto].
  - cbn [bind]. apply IH; [intros u v w J; apply (SZ u v w); now right|exact N].
Qed.
Theorem C62_accepted : forall bs ls, squares bs ls -> (forall l, In l ls -> disjoint bs l) ->
  exists sprites r, industry_graphics bs ls = Some (sprites, r).
Proof.
  intros bs ls S D. unfold industry_graphics.
  enough (G : forall st, exists st' r, layouts bs st ls = Some (st', r)) by (destruct (G ([None], [])) as (st' & r & ->); cbn [bind]; eauto).
  induction ls as [|l ls IH]; intros st; cbn [layouts]; [eauto|].
  destruct (place_all_total bs l st [] []) as (st1 & [tiles occ] & ->).
  - intros x0 y0 b J. apply (S l (x0, y0, b)); [now left|exact J].
  - apply nodup_claims; [apply D; now left|]. intros x0 y0 b J. exact (proj2 (S l (x0, y0, b) (or_introl eq_refl) J)).
  - cbn [bind]. destruct (IH) with (st := st1) as (st2 & r & ->).
    + intros l' e L J. apply (S l' e); [now right|exact J].
    + intros l' L. apply D. now right.
    + cbn [bind]. eauto.
Qed.
(** Overlapping ones are refused. *)
Theorem C62_overlap_refused : forall bs ls l, squares bs ls -> In l ls -> ~ disjoint bs l -> industry_graphics bs ls = None.
Proof.
  intros bs ls l S L D. destruct (industry_graphics bs ls) as [[sprites r]|] eqn:E; [|reflexivity]. exfalso. apply D.
  apply In_nth_error in L as [i L]. destruct (C62_layout bs ls sprites r S E) as (_ & _ & H). destruct (H i l L) as (ranges & occ & _ & _ & X & _). exact X.
Qed.

(** FULL CLAIM REFUTED for buildings that are not square: the code takes the
    first of the two sizes for both, so a building one tile wide and two deep
    lists one of its two tiles, and one two wide and one deep lists two tiles
    it does not stand on. *)
Definition shed : building := mk_building 1 2 0 0 40 (-63) (-20).
Definition barn : building := mk_building 2 1 0 0 40 (-31) (-20).
Theorem C62_size_refuted : exists bs l sprites r ranges occ ranges' occ', sized (bs 0%nat) /\ sized (bs 1%nat)
  /\ l = [[(0, 0, 0%nat)]; [(0, 0, 1%nat)]] /\ industry_graphics bs l = Some (sprites, r) /\ r = [(ranges, occ); (ranges', occ')]
  /\ (stands_on (bs 0%nat) 0 0 (0, 1) /\ ~ In (0, 1) occ) /\ (In (0, 1) occ' /\ ~ stands_on (bs 1%nat) 0 0 (0, 1)).
Proof.
  exists (fun n => match n with O => shed | _ => barn end). do 7 eexists. split; [unfold sized; cbn; lia|]. split; [unfold sized; cbn; lia|]. split; [reflexivity|].
  split; [vm_compute; reflexivity|]. split; [reflexivity|]. cbn. unfold stands_on. cbn. split; [split; [lia|intros [Q | []]; discriminate Q]|]. split; [auto|lia].
Qed.

(** ---- a case ---- *)
(** A tower on two by two tiles, 300 pixels high: its middle strip is higher
    than the game draws and gets cut. *)
Definition tower : building := mk_building 2 2 10 20 300 (-63) (-250).
Definition hut : building := mk_building 1 1 0 0 40 (-31) (-20).
Definition buildings (n : nat) : building := match n with O => tower | _ => hut end.
Definition plan : list (list (Z * Z * nat)) := [[(0, 0, 0%nat); (2, 1, 1%nat)]; [(0, 0, 1%nat); (1, 0, 1%nat)]].
Example C62_case_pieces : building_sprites tower =
  Some ([((2, 1), 0); ((2, 2), 1); ((1, 1), 2); ((1, 2), 3)],
        [mk_piece 10 20 32 300 (-31) (-234); mk_piece 42 89 64 231 (-31) (-181); mk_piece 42 20 64 69 (-31) (-218); mk_piece 106 20 32 300 1 (-234)]).
Proof. reflexivity. Qed.
Example C62_case_plan : squares buildings plan /\ (forall l, In l plan -> disjoint buildings l /\ fits buildings l).
Proof.
  split.
  - intros l e L I. destruct L as [<- | [<- | []]]; destruct I as [<- | [<- | []]]; cbn; unfold sized; cbn; lia.
  - intros l [<- | [<- | []]]; split.
    + intros [|[|[|i]]] [|[|[|j]]] x0 y0 b x1 y1 c p A C; try discriminate A; try discriminate C; try reflexivity; apply some_inj in A; apply some_inj in C;
        apply pair_inj in A as [A <-]; apply pair_inj in C as [C <-]; apply pair_inj in A as [<- <-]; apply pair_inj in C as [<- <-]; unfold stands_on; cbn; lia.
    + intros x0 y0 b [Q | [Q | []]]; apply pair_inj in Q as [Q <-]; apply pair_inj in Q as [<- <-]; cbn; lia.
    + intros [|[|[|i]]] [|[|[|j]]] x0 y0 b x1 y1 c p A C; try discriminate A; try discriminate C; try reflexivity; apply some_inj in A; apply some_inj in C;
        apply pair_inj in A as [A <-]; apply pair_inj in C as [C <-]; apply pair_inj in A as [<- <-]; apply pair_inj in C as [<- <-]; unfold stands_on; cbn; lia.
    + intros x0 y0 b [Q | [Q | []]]; apply pair_inj in Q as [Q <-]; apply pair_inj in Q as [<- <-]; cbn; lia.
Qed.
Example C62_case : exists sprites, industry_graphics buildings plan =
  Some (sprites, [([(1, 1); (257, 2); (0, 3); (256, 4); (258, 5)], [(0, 0); (0, 1); (1, 0); (1, 1); (2, 1)]); ([(0, 5); (1, 5)], [(0, 0); (1, 0)])]) /\ length sprites = 6%nat.
Proof. eexists. split; vm_compute; reflexivity. Qed.
Example C62_case_overlap : industry_graphics buildings [[(0, 0, 0%nat); (1, 1, 1%nat)]] = None.
Proof. reflexivity. Qed.

Print Assumptions C62_pieces.
Print Assumptions C62_only.
Print Assumptions C62_tiles.
Print Assumptions C62_height.
Print Assumptions C62_layout.
Print Assumptions C62_drawn.
Print Assumptions C62_accepted.
Print Assumptions C62_overlap_refused.
Print Assumptions C62_size_refuted.
