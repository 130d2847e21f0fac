(** Proofs about the voxel renderer. *)
From Verif Require Import Base BaseFacts VoxModel SpecVox.
From Coq Require Import ZArith List Bool Lia.
Import ListNotations.
Open Scope Z_scope.

(** ** One pixel *)

Definition step (c : cell) (e : Z * Z) : cell :=
  if match fst c with None => false | Some o => fst e <=? o end then c else (Some (fst e), snd e).

Definition step_opt (c : cell) (e : option (Z * Z)) : cell :=
  match e with None => c | Some e => step c e end.

Fixpoint ev (t : stencil) (s : spot) (y x : Z) : option (Z * Z) :=
  match t with
  | [] => None
  | (dx, dy, side) :: t =>
      if (y =? sy s + dy) && (x =? sx s + dx) then Some (sz s, Z.lor (sc s) side) else ev t s y x
  end.

Lemma np_ix_in n i : 0 <= i < n -> np_ix n i = Some i.
Proof.
  intros H. unfold np_ix.
  replace (0 <=? i) with true by (symmetry; apply Z.leb_le; lia).
  replace (i <? n) with true by (symmetry; apply Z.ltb_lt; lia). reflexivity.
Qed.

Lemma set_pixel_in h w x y z c st :
  0 <= y < h -> 0 <= x < w ->
  exists st', set_pixel h w x y z c st = Some st' /\
    forall y' x', st' y' x' = if (y' =? y) && (x' =? x) then step (st y' x') (z, c) else st y' x'.
Proof.
  intros Hy Hx. unfold set_pixel. rewrite (np_ix_in h y Hy), (np_ix_in w x Hx). cbn [bind].
  destruct (match fst (st y x) with None => false | Some o => z <=? o end) eqn:E.
  - eexists. split; [reflexivity|]. intros y' x'.
    destruct ((y' =? y) && (x' =? x)) eqn:P; [|reflexivity].
    apply andb_true_iff in P as [A B]. apply Z.eqb_eq in A, B. subst.
    unfold step. cbn [fst snd]. rewrite E. reflexivity.
  - eexists. split; [reflexivity|]. intros y' x'. unfold put.
    destruct ((y' =? y) && (x' =? x)) eqn:P; [|reflexivity].
    apply andb_true_iff in P as [A B]. apply Z.eqb_eq in A, B. subst.
    unfold step. cbn [fst snd]. rewrite E. reflexivity.
Qed.

Lemma step_done c z a e : step (step c (z, a)) (z, e) = step c (z, a).
Proof.
  unfold step at 2 3. cbn [fst snd].
  destruct c as [[o|] v]; cbn [fst].
  - destruct (z <=? o) eqn:E.
    + unfold step. cbn [fst snd]. rewrite E. reflexivity.
    + unfold step. cbn [fst snd]. rewrite Z.leb_refl. reflexivity.
  - unfold step. cbn [fst snd]. rewrite Z.leb_refl. reflexivity.
Qed.

Definition fits (h w : Z) (t : stencil) (s : spot) : Prop :=
  forall dx dy side, In (dx, dy, side) t -> 0 <= sy s + dy < h /\ 0 <= sx s + dx < w.

Lemma ev_depth t s y x z c : ev t s y x = Some (z, c) -> z = sz s.
Proof.
  induction t as [|[[dx dy] side] t IH]; cbn [ev]; [discriminate|].
  destruct ((y =? sy s + dy) && (x =? sx s + dx)); [|exact IH].
  intros E. apply some_inj, pair_inj in E. intuition.
Qed.

Lemma paint_spot_px h w t s : forall st, fits h w t s ->
  exists st', paint_spot h w t s st = Some st' /\
    forall y x, st' y x = step_opt (st y x) (ev t s y x).
Proof.
  induction t as [|[[dx dy] side] t IH]; intros st F.
  - exists st. split; reflexivity.
  - destruct (F dx dy side (or_introl eq_refl)) as [A B].
    destruct (set_pixel_in h w (sx s + dx) (sy s + dy) (sz s) (Z.lor (sc s) side) st A B) as (st1 & E & P).
    cbn [paint_spot]. rewrite E. cbn [bind].
    destruct (IH st1) as (st2 & E2 & P2). { intros a b c H. exact (F a b c (or_intror H)). }
    exists st2. split; [exact E2|]. intros y x. rewrite P2, P. cbn [ev].
    destruct ((y =? sy s + dy) && (x =? sx s + dx)); [|reflexivity].
    cbn [step_opt]. destruct (ev t s y x) as [[z c]|] eqn:EV; cbn [step_opt]; [|reflexivity].
    rewrite (ev_depth _ _ _ _ _ _ EV). apply step_done.
Qed.

Lemma paint_all_px h w t l : forall st, Forall (fits h w t) l ->
  exists st', paint_all h w t l st = Some st' /\
    forall y x, st' y x = fold_left (fun c s => step_opt c (ev t s y x)) l (st y x).
Proof.
  induction l as [|s l IH]; intros st F.
  - exists st. split; reflexivity.
  - inversion F as [|? ? A B]; subst.
    destruct (paint_spot_px h w t s st A) as (st1 & E & P).
    cbn [paint_all]. rewrite E. cbn [bind].
    destruct (IH st1 B) as (st2 & E2 & P2).
    exists st2. split; [exact E2|]. intros y x. rewrite P2, P. reflexivity.
Qed.

(** ** The winner *)

Lemma winner {A} (f : A -> option (Z * Z)) l :
  (fold_left (fun c s => step_opt c (f s)) l (None, 0) = (None, 0) /\ forall s, In s l -> f s = None) \/
  exists i s z c, nth_error l i = Some s /\ f s = Some (z, c) /\
    fold_left (fun c s => step_opt c (f s)) l (None, 0) = (Some z, c) /\
    forall j s' z' c', nth_error l j = Some s' -> f s' = Some (z', c') -> z' < z \/ (z' = z /\ (i <= j)%nat).
Proof.
  induction l as [|s l IH] using rev_ind.
  - left. split; [reflexivity|]. intros s [].
  - rewrite fold_left_app. cbn [fold_left].
    destruct (f s) as [[z c]|] eqn:E; cbn [step_opt].
    + destruct IH as [[H N] | (i & s0 & z0 & c0 & N & F & H & M)]; rewrite H; unfold step; cbn [fst snd].
      * right. exists (length l), s, z, c. split; [rewrite nth_error_app2, Nat.sub_diag by lia; reflexivity|].
        split; [exact E|]. split; [reflexivity|].
        intros j s' z' c' J F'. destruct (Nat.lt_ge_cases j (length l)) as [L|L].
        -- rewrite nth_error_app1 in J by exact L. rewrite (N s' (nth_error_In _ _ J)) in F'. discriminate.
        -- rewrite nth_error_app2 in J by exact L. destruct (j - length l)%nat as [|n] eqn:D.
           ++ cbn in J. apply some_inj in J. subst s'. rewrite E in F'. apply some_inj, pair_inj in F' as [-> _].
              right. split; [reflexivity|lia].
           ++ cbn in J. destruct n; discriminate.
      * destruct (z <=? z0) eqn:Q.
        -- right. exists i, s0, z0, c0.
           assert (IL : (i < length l)%nat) by (apply nth_error_Some; rewrite N; discriminate).
           split; [rewrite nth_error_app1 by exact IL; exact N|].
           split; [exact F|]. split; [reflexivity|].
           intros j s' z' c' J F'. destruct (Nat.lt_ge_cases j (length l)) as [L|L].
           ++ rewrite nth_error_app1 in J by exact L. exact (M j s' z' c' J F').
           ++ rewrite nth_error_app2 in J by exact L. destruct (j - length l)%nat as [|n] eqn:D.
              ** cbn in J. apply some_inj in J. subst s'. rewrite E in F'. apply some_inj, pair_inj in F' as [-> _].
                 apply Z.leb_le in Q. destruct (Z.eq_dec z' z0); [right|left]; lia.
              ** cbn in J. destruct n; discriminate.
        -- apply Z.leb_gt in Q. right. exists (length l), s, z, c.
           split; [rewrite nth_error_app2, Nat.sub_diag by lia; reflexivity|].
           split; [exact E|]. split; [reflexivity|].
           intros j s' z' c' J F'. destruct (Nat.lt_ge_cases j (length l)) as [L|L].
           ++ rewrite nth_error_app1 in J by exact L. destruct (M j s' z' c' J F') as [|[? _]]; left; lia.
           ++ rewrite nth_error_app2 in J by exact L. destruct (j - length l)%nat as [|n] eqn:D.
              ** cbn in J. apply some_inj in J. subst s'. rewrite E in F'. apply some_inj, pair_inj in F' as [-> _].
                 right. split; [reflexivity|lia].
              ** cbn in J. destruct n; discriminate.
    + destruct IH as [[H N] | (i & s0 & z0 & c0 & N & F & H & M)]; rewrite H.
      * left. split; [reflexivity|]. intros s' I. apply in_app_or in I as [I|[<-|[]]]; [exact (N _ I)|exact E].
      * right. exists i, s0, z0, c0.
        assert (IL : (i < length l)%nat) by (apply nth_error_Some; rewrite N; discriminate).
        split; [rewrite nth_error_app1 by exact IL; exact N|].
        split; [exact F|]. split; [reflexivity|].
        intros j s' z' c' J F'. destruct (Nat.lt_ge_cases j (length l)) as [L|L].
        -- rewrite nth_error_app1 in J by exact L. exact (M j s' z' c' J F').
        -- rewrite nth_error_app2 in J by exact L. destruct (j - length l)%nat as [|n] eqn:D.
           ++ cbn in J. apply some_inj in J. subst s'. rewrite E in F'. discriminate.
           ++ cbn in J. destruct n; discriminate.
Qed.

(** ** Minimum and maximum *)

Lemma fold_min l : forall a, let m := fold_left Z.min l a in
  (m = a \/ In m l) /\ m <= a /\ forall b, In b l -> m <= b.
Proof.
  induction l as [|b l IH]; intros a; cbn [fold_left].
  - cbn. split; [left; reflexivity|]. split; [lia|]. intros b [].
  - destruct (IH (Z.min a b)) as (A & B & C). cbv zeta. split; [|split].
    + destruct A as [A|A]; [|right; right; exact A].
      rewrite A. destruct (Z.min_spec a b) as [[_ ->]|[_ ->]]; [left; reflexivity|right; left; reflexivity].
    + lia.
    + intros c [<-|I]; [lia|exact (C c I)].
Qed.

Lemma fold_max l : forall a, let m := fold_left Z.max l a in
  (m = a \/ In m l) /\ a <= m /\ forall b, In b l -> b <= m.
Proof.
  induction l as [|b l IH]; intros a; cbn [fold_left].
  - cbn. split; [left; reflexivity|]. split; [lia|]. intros b [].
  - destruct (IH (Z.max a b)) as (A & B & C). cbv zeta. split; [|split].
    + destruct A as [A|A]; [|right; right; exact A].
      rewrite A. destruct (Z.max_spec a b) as [[_ ->]|[_ ->]]; [right; left; reflexivity|left; reflexivity].
    + lia.
    + intros c [<-|I]; [lia|exact (C c I)].
Qed.

Lemma amin_least f l m : amin (map f l) = Some m -> Least f l m.
Proof.
  destruct l as [|v l]; [discriminate|]. unfold amin. cbn [map]. intros E. apply some_inj in E.
  destruct (fold_min (map f l) (f v)) as (A & B & C). rewrite E in A, B, C. split.
  - destruct A as [A|A].
    + exists v. split; [left; reflexivity|congruence].
    + apply in_map_iff in A as (u & P & Q). exists u. split; [right; exact Q|exact P].
  - intros u [<-|I]; [exact B|]. apply C. apply in_map. exact I.
Qed.

Lemma amax_greatest f l m : amax (map f l) = Some m -> Greatest f l m.
Proof.
  destruct l as [|v l]; [discriminate|]. unfold amax. cbn [map]. intros E. apply some_inj in E.
  destruct (fold_max (map f l) (f v)) as (A & B & C). rewrite E in A, B, C. split.
  - destruct A as [A|A].
    + exists v. split; [left; reflexivity|congruence].
    + apply in_map_iff in A as (u & P & Q). exists u. split; [right; exact Q|exact P].
  - intros u [<-|I]; [exact B|]. apply C. apply in_map. exact I.
Qed.

(** ** The house picture *)

Definition face_bits (f : face) (right_half : bool) : Z :=
  match f with Top => if right_half then 256 else 0 | LeftFace => 512 | RightFace => 768 end.

(** the stencil and the geometry agree *)
Lemma ev_house xmin ymin d v c y x :
  ev house_stencil (mk_spot (col_of v - xmin) (row_of v - ymin) d c) y x =
  match face_of v (y + ymin) (x + xmin) with
  | None => None
  | Some f => Some (d, Z.lor c (face_bits f (negb (x + xmin =? col_of v))))
  end.
Proof.
  unfold house_stencil, ev, face_of, face_bits, col_of, row_of, SIDE_ZL, SIDE_ZR, SIDE_X, SIDE_Y.
  cbn [sx sy sz sc].
  repeat match goal with |- context [?a =? ?b] => destruct (Z.eqb_spec a b) end;
    cbn [andb orb negb]; try lia; try reflexivity.
Qed.

Lemma colours_of_fst k r : forall l m, colours_of k r l = Some m -> map fst m = l.
Proof.
  induction l as [|v l IH]; cbn [colours_of]; intros m E.
  - apply some_inj in E. subst. reflexivity.
  - destruct (ttd_palette k r (vi v)) as [c|]; [|discriminate]. cbn [bind] in E.
    destruct (colours_of k r l) as [m'|]; [|discriminate]. cbn [bind] in E. apply some_inj in E. subst m.
    cbn [map fst]. rewrite (IH m' eq_refl). reflexivity.
Qed.

(** index of an element of a filtered list in the original one *)
Lemma nth_filter {A} (f : A -> bool) l : exists g : nat -> nat,
  (forall i j, (i <= j)%nat -> (g i <= g j)%nat) /\
  (forall i a, nth_error (filter f l) i = Some a -> nth_error l (g i) = Some a) /\
  (forall j a, nth_error l j = Some a -> f a = true -> exists i, g i = j /\ nth_error (filter f l) i = Some a).
Proof.
  induction l as [|b l (g & G1 & G2 & G3)].
  - exists (fun i => i). split; [auto|]. split; [intros [|i] a H; discriminate|]. intros [|j] a H; discriminate.
  - cbn [filter]. destruct (f b) eqn:F.
    + exists (fun i => match i with O => O | S i => S (g i) end). split; [|split].
      * intros [|i] [|j] L; try lia. specialize (G1 i j). lia.
      * intros [|i] a H; cbn in *; [exact H|exact (G2 i a H)].
      * intros [|j] a H T; cbn in H.
        -- exists O. split; [reflexivity|exact H].
        -- destruct (G3 j a H T) as (i & <- & N). exists (S i). split; [reflexivity|exact N].
    + exists (fun i => S (g i)). split; [|split].
      * intros i j L. specialize (G1 i j L). lia.
      * intros i a H. exact (G2 i a H).
      * intros [|j] a H T; cbn in H.
        -- apply some_inj in H. subst. congruence.
        -- destruct (G3 j a H T) as (i & <- & N). exists i. split; [reflexivity|exact N].
Qed.

Lemma house_pixels k r p : house_load k r = Some p ->
  exists cc xmin xmax ymin ymax,
    colours_of k r (r_voxels r) = Some cc /\
    Least col_of (r_voxels r) xmin /\ Greatest col_of (r_voxels r) xmax /\
    Least row_of (r_voxels r) ymin /\ Greatest row_of (r_voxels r) ymax /\
    p_w p = xmax - xmin + 2 /\ p_h p = ymax - ymin + 3 /\
    forall y x,
      (p_px p y x = 0 /\ forall i v c f, ~ Hit cc (y + ymin) (x + xmin) i v c f) \/
      exists i v c f, Front (k_depth k) cc (y + ymin) (x + xmin) i v c f /\
        p_px p y x = Z.lor c (face_bits f (negb (x + xmin =? col_of v))).
Proof.
  unfold house_load. destruct (colours_of k r (r_voxels r)) as [cc|] eqn:EC; [|discriminate]. cbn [bind].
  destruct (amin (map col_of (r_voxels r))) as [xmin|] eqn:E1; [|discriminate]. cbn [bind].
  destruct (amax (map col_of (r_voxels r))) as [xmax|] eqn:E2; [|discriminate]. cbn [bind].
  destruct (amin (map row_of (r_voxels r))) as [ymin|] eqn:E3; [|discriminate]. cbn [bind].
  destruct (amax (map row_of (r_voxels r))) as [ymax|] eqn:E4; [|discriminate]. cbn [bind].
  apply amin_least in E1, E3. apply amax_greatest in E2, E4.
  assert (FIT : Forall (fits (ymax - ymin + 3) (xmax - xmin + 2) house_stencil) (house_spots k xmin ymin cc)).
  { apply Forall_forall. intros s I. unfold house_spots in I. apply in_map_iff in I as ([v c] & <- & I).
    apply filter_In in I as [I _].
    assert (IV : In v (r_voxels r)).
    { rewrite <- (colours_of_fst k r _ _ EC). apply in_map_iff. exists (v, c). split; [reflexivity|exact I]. }
    pose proof (proj2 E1 v IV). pose proof (proj2 E2 v IV). pose proof (proj2 E3 v IV). pose proof (proj2 E4 v IV).
    intros dx dy side D. cbn [sx sy fst].
    unfold house_stencil in D. cbn [In] in D.
    repeat (destruct D as [D|D]; [apply pair_inj in D as [D _]; apply pair_inj in D as [<- <-]; lia|]). destruct D. }
  destruct (paint_all_px _ _ house_stencil _ blank FIT) as (st & E & P). rewrite E. cbn [bind].
  intros H. apply some_inj in H. subst p. cbn [p_h p_w p_px].
  exists cc, xmin, xmax, ymin, ymax. repeat (split; [assumption || reflexivity|]).
  intros y x. rewrite P. unfold blank.
  destruct (nth_filter (fun p : vox * Z => negb (snd p =? 1)) cc) as (g & G1 & G2 & G3).
  destruct (winner (fun s => ev house_stencil s y x) (house_spots k xmin ymin cc))
    as [[W N] | (i & s & z & c & N & F & W & M)]; rewrite W; cbn [snd].
  - left. split; [reflexivity|]. intros j v c f (J & C1 & C2).
    destruct (G3 j (v, c) J) as (i & _ & NI). { cbn [snd]. apply negb_true_iff, Z.eqb_neq. exact C1. }
    specialize (N (mk_spot (col_of v - xmin) (row_of v - ymin) (k_depth k v) c)).
    rewrite ev_house, C2 in N. discriminate N.
    unfold house_spots. apply in_map_iff. exists (v, c). split; [reflexivity|]. exact (nth_error_In _ _ NI).
  - right. unfold house_spots in N. rewrite nth_error_map in N.
    destruct (nth_error (filter (fun p => negb (snd p =? 1)) cc) i) as [[v c0]|] eqn:NI; [|discriminate].
    cbn [option_map fst snd] in N. apply some_inj in N. subst s. rewrite ev_house in F.
    destruct (face_of v (y + ymin) (x + xmin)) as [f|] eqn:FV; [|discriminate].
    apply some_inj, pair_inj in F as [<- <-].
    exists (g i), v, c0, f. split; [|reflexivity].
    assert (C1 : c0 <> 1).
    { apply nth_error_In in NI. apply filter_In in NI as [_ NI]. cbn [snd] in NI.
      apply negb_true_iff, Z.eqb_neq in NI. exact NI. }
    split; [split; [exact (G2 _ _ NI)|split; [exact C1|exact FV]]|].
    intros j v' c' f' (J & C1' & C2').
    destruct (G3 j (v', c') J) as (i' & <- & NI'). { cbn [snd]. apply negb_true_iff, Z.eqb_neq. exact C1'. }
    destruct (M i' (mk_spot (col_of v' - xmin) (row_of v' - ymin) (k_depth k v') c')
                (k_depth k v') (Z.lor c' (face_bits f' (negb (x + xmin =? col_of v'))))) as [L|[L I]].
    + unfold house_spots. rewrite nth_error_map, NI'. reflexivity.
    + rewrite ev_house, C2'. reflexivity.
    + left. exact L.
    + right. split; [exact L|]. apply G1. exact I.
Qed.
