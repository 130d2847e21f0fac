(** Proofs for DecodeModel: resource names and sprite sheets. *)
From Coq Require Import ZArith List Bool Lia FinFun.
From Verif Require Import Base BaseFacts DecodeModel SpecDecode.
Import ListNotations.
Open Scope Z_scope.

Lemma bytes_eq_iff : forall a b, bytes_eq a b = true <-> a = b.
Proof.
  induction a as [|x a IH]; intros [|y b]; cbn; try (split; [discriminate|discriminate]); [tauto|].
  rewrite andb_true_iff, IH, Z.eqb_eq. split; [intros [-> ->]; reflexivity|intros E; injection E; auto].
Qed.
Lemma mem_name_In : forall n l, mem_name n l = true <-> In n l.
Proof.
  intros n l. unfold mem_name. rewrite existsb_exists. split.
  - intros (x & H & E). apply bytes_eq_iff in E. subst. exact H.
  - intros H. exists n. split; [exact H|apply bytes_eq_iff; reflexivity].
Qed.

Lemma find_unique_loop_some : forall n index name ext i u index',
  find_unique_loop index name ext n i = Some (u, index') ->
  ~ In u index /\ index' = u :: index /\ exists j, i <= j < i + Z.of_nat n /\ u = candidate name ext j.
Proof.
  induction n as [|n IH]; intros index name ext i u index' E; [discriminate|].
  cbn [find_unique_loop] in E. destruct (mem_name (candidate name ext i) index) eqn:M.
  - destruct (IH _ _ _ _ _ _ E) as (A & B & j & C & D). split; [exact A|]. split; [exact B|].
    exists j. split; [lia|exact D].
  - injection E as <- <-. split; [|split; [reflexivity|]].
    + intros H. apply mem_name_In in H. congruence.
    + exists i. split; [lia|reflexivity].
Qed.
Lemma find_unique_loop_none : forall n index name ext i,
  find_unique_loop index name ext n i = None ->
  forall j, i <= j < i + Z.of_nat n -> In (candidate name ext j) index.
Proof.
  induction n as [|n IH]; intros index name ext i E j H; [lia|].
  cbn [find_unique_loop] in E. destruct (mem_name (candidate name ext i) index) eqn:M; [|discriminate].
  destruct (Z.eq_dec i j) as [->|N]; [apply mem_name_In; exact M|].
  apply (IH _ _ _ _ E). lia.
Qed.

Definition digits_val (l : bytes) : Z := fold_left (fun a d => 10 * a + (d - 48)) l 0.
Lemma digits_val_snoc : forall l d, digits_val (l ++ [d]) = 10 * digits_val l + (d - 48).
Proof. intros l d. unfold digits_val. rewrite fold_left_app. reflexivity. Qed.
Lemma dec_digits_val : forall fuel n, 0 <= n < Z.of_nat fuel -> digits_val (dec_digits fuel n) = n.
Proof.
  induction fuel as [|fuel IH]; intros n H; [lia|]. cbn [dec_digits].
  destruct (n <? 10) eqn:Q.
  - change (digits_val [48 + n]) with (10 * 0 + (48 + n - 48)). lia.
  - rewrite digits_val_snoc, IH by lia. lia.
Qed.
Lemma str_nat_inj : forall a b, 0 <= a -> 0 <= b -> str_nat a = str_nat b -> a = b.
Proof.
  intros a b A B E. rewrite <- (dec_digits_val (S (Z.to_nat a)) a) by lia.
  rewrite <- (dec_digits_val (S (Z.to_nat b)) b) by lia. unfold str_nat in E. rewrite E. reflexivity.
Qed.
Lemma candidate_inj : forall name ext i j, 0 <= i -> 0 <= j ->
  candidate name ext i = candidate name ext j -> i = j.
Proof.
  intros name ext i j Hi Hj. unfold candidate.
  destruct (i =? 0) eqn:I; destruct (j =? 0) eqn:J; intros E; apply app_inv_head in E; try lia.
  - apply (f_equal (@length Z)) in E. cbn [length] in E. rewrite app_length in E. cbn [length] in E. lia.
  - apply (f_equal (@length Z)) in E. cbn [length] in E. rewrite app_length in E. cbn [length] in E. lia.
  - injection E as E. apply app_inv_tail in E. apply str_nat_inj in E; lia.
Qed.
Definition candidates (name ext : bytes) (n : nat) : list bytes :=
  map (fun i => candidate name ext (Z.of_nat i)) (seq 0 n).
Lemma candidates_nodup : forall name ext n, NoDup (candidates name ext n).
Proof.
  intros name ext n. unfold candidates. apply FinFun.Injective_map_NoDup; [|apply seq_NoDup].
  intros a b E. apply candidate_inj in E; lia.
Qed.

(** Fewer names taken than tries: some candidate is free. *)
Lemma find_unique_total : forall index name ext tries, (length index < tries)%nat ->
  exists u, find_unique index name ext tries = Some (u, u :: index).
Proof.
  intros index name ext tries H. destruct (find_unique index name ext tries) as [[u index']|] eqn:E.
  - exists u. destruct (find_unique_loop_some _ _ _ _ _ _ _ E) as (_ & -> & _). reflexivity.
  - exfalso. assert (I : incl (candidates name ext tries) index).
    { intros x Hx. apply in_map_iff in Hx as (k & <- & Hk). apply in_seq in Hk.
      apply (find_unique_loop_none _ _ _ _ _ E). lia. }
    apply NoDup_incl_length in I; [|apply candidates_nodup].
    unfold candidates in I. rewrite map_length, seq_length in I. lia.
Qed.

Lemma sound_names_nodup : forall ascii ext names index l,
  sound_names ascii index names ext = Some l ->
  NoDup l /\ (forall x, In x l -> ~ In x index) /\ length l = length names.
Proof.
  intros ascii ext; induction names as [|n names IH]; intros index l E; cbn [sound_names] in E.
  - injection E as <-. split; [constructor|]. split; [intros x []|reflexivity].
  - destruct (gen_resource_name ascii index n ext 100) as [[u index']|] eqn:G; [|discriminate].
    cbn [bind] in E. destruct (sound_names ascii index' names ext) as [r|] eqn:R; [|discriminate].
    cbn [bind] in E. injection E as <-.
    destruct (find_unique_loop_some _ _ _ _ _ _ _ G) as (A & -> & _).
    destruct (IH _ _ R) as (N & D & L). split; [|split].
    + constructor; [|exact N]. intros H. apply (D u H). left. reflexivity.
    + intros x [<-|H]; [exact A|]. intros K. apply (D x H). right. exact K.
    + cbn. rewrite L. reflexivity.
Qed.

Lemma sound_names_total : forall ascii ext names index,
  (length index + length names <= 100)%nat ->
  exists l, sound_names ascii index names ext = Some l.
Proof.
  intros ascii ext; induction names as [|n names IH]; intros index H; cbn [sound_names].
  - exists []. reflexivity.
  - cbn [length] in H. unfold gen_resource_name.
    destruct (find_unique_total index (sanitise (ascii (cut_extension n ext))) ext 100) as (u & E); [lia|].
    rewrite E. cbn [bind]. destruct (IH (u :: index)) as (l & El); [cbn [length]; lia|].
    rewrite El. exists (u :: l). reflexivity.
Qed.

Lemma sound_names_form : forall ascii ext names index l,
  sound_names ascii index names ext = Some l ->
  Forall2 (fun n u => exists i, 0 <= i < 100 /\
             u = candidate (sanitise (ascii (cut_extension n ext))) ext i) names l.
Proof.
  intros ascii ext; induction names as [|n names IH]; intros index l E; cbn [sound_names] in E.
  - injection E as <-. constructor.
  - destruct (gen_resource_name ascii index n ext 100) as [[u index']|] eqn:G; [|discriminate].
    cbn [bind] in E. destruct (sound_names ascii index' names ext) as [r|] eqn:R; [|discriminate].
    cbn [bind] in E. injection E as <-. constructor; [|exact (IH _ _ R)].
    destruct (find_unique_loop_some _ _ _ _ _ _ _ G) as (_ & _ & j & J & Ej).
    exists j. split; [lia|exact Ej].
Qed.

(** Too many equal names: the limit of tries is hit. *)
Lemma sound_names_limit : forall ascii ext n k, (100 < k)%nat ->
  sound_names ascii [] (repeat n k) ext = None.
Proof.
  intros ascii ext n k H. destruct (sound_names ascii [] (repeat n k) ext) as [l|] eqn:E; [|reflexivity].
  exfalso. destruct (sound_names_nodup _ _ _ _ _ E) as (N & _ & L). rewrite repeat_length in L.
  assert (I : incl l (candidates (sanitise (ascii (cut_extension n ext))) ext 100)).
  { apply sound_names_form in E. intros u Hu.
    assert (G : forall ns us, Forall2 (fun n u => exists i, 0 <= i < 100 /\
             u = candidate (sanitise (ascii (cut_extension n ext))) ext i) ns us ->
             Forall (eq n) ns -> In u us ->
             exists i, 0 <= i < 100 /\ u = candidate (sanitise (ascii (cut_extension n ext))) ext i).
    { clear. intros ns us F. induction F as [|a b ns us P F IH]; intros Q; [intros []|].
      inversion_clear Q as [|? ? Q1 Q2]. intros [<-|K]; [subst a; exact P|exact (IH Q2 K)]. }
    destruct (G _ _ E) as (i & Hi & ->); [|exact Hu|].
    - clear. induction k; cbn; constructor; [reflexivity|assumption].
    - unfold candidates. apply in_map_iff. exists (Z.to_nat i). split; [f_equal; lia|apply in_seq; lia]. }
  apply NoDup_incl_length in I; [|exact N].
  unfold candidates in I. rewrite map_length, seq_length, L in I. lia.
Qed.

(** ---- characters of a sanitised name ---- *)
Definition ok_char (c : Z) : Prop := is_lower c = true \/ is_digit c = true \/ c = 95 \/ is_dash c = true.
Lemma lower_not_upper : forall c, is_upper (lower c) = false.
Proof. intros c. unfold lower. destruct (is_upper c) eqn:E; [|exact E]. unfold is_upper in *. lia. Qed.

Lemma squash_chars : forall s d, Forall (fun c => (is_word c || is_space c || (c =? 45)) = true /\ is_upper c = false) s ->
  Forall name_char (squash d s).
Proof.
  induction s as [|c s IH]; intros d F; cbn [squash]; [constructor|].
  inversion_clear F as [|? ? [F1 F2] F3]. destruct (is_dash c) eqn:D.
  - destruct d; [apply IH, F3|]. constructor; [right; right; right; reflexivity|apply IH, F3].
  - constructor; [|apply IH, F3].
    unfold is_dash in D. apply orb_false_iff in D as [D1 D2]. rewrite D1, D2 in F1.
    unfold is_word in F1. rewrite F2 in F1. unfold name_char, is_lower, is_digit in *. lia.
Qed.
Lemma lstrip_incl : forall (P : Z -> Prop) s, Forall P s -> Forall P (lstrip s).
Proof.
  induction s as [|c s IH]; intros F; cbn [lstrip]; [constructor|].
  destruct (is_strip c); [inversion_clear F; auto|exact F].
Qed.
Lemma sanitise_chars : forall s, Forall name_char (sanitise s).
Proof.
  intros s. unfold sanitise, strip. apply Forall_rev, lstrip_incl, Forall_rev, lstrip_incl, squash_chars.
  apply Forall_forall. intros c H. apply filter_In in H as [H1 H2]. split; [exact H2|].
  apply in_map_iff in H1 as (x & <- & _). apply lower_not_upper.
Qed.
Lemma dec_digits_chars : forall fuel n, 0 <= n -> Forall name_char (dec_digits fuel n).
Proof.
  induction fuel as [|fuel IH]; intros n H; cbn [dec_digits]; [constructor|].
  destruct (n <? 10) eqn:Q.
  - constructor; [unfold name_char; lia|constructor].
  - apply Forall_app. split; [apply IH; lia|constructor; [unfold name_char; lia|constructor]].
Qed.
Lemma candidate_chars : forall s ext i, 0 <= i -> exists base,
  candidate (sanitise s) ext i = base ++ 46 :: ext /\ Forall name_char base.
Proof.
  intros s ext i H. unfold candidate. destruct (i =? 0).
  - exists (sanitise s). split; [reflexivity|apply sanitise_chars].
  - exists (sanitise s ++ 95 :: str_nat (i + 1)). split; [rewrite <- app_assoc; reflexivity|].
    apply Forall_app. split; [apply sanitise_chars|]. constructor; [unfold name_char; lia|].
    apply dec_digits_chars. lia.
Qed.

(** ---- sprite sheets ---- *)
Definition row_of (sprites : list (Z * Z)) (r : nat) : list (Z * Z) :=
  firstn sheet_N (skipn (sheet_N * r) sprites).

Lemma skipn_skipn' : forall {A} a b (l : list A), skipn a (skipn b l) = skipn (b + a) l.
Proof.
  intros A a b; revert a; induction b; intros a l; [reflexivity|]. destruct l; [destruct a; reflexivity|]. apply IHb.
Qed.

Lemma maxz_nonneg : forall l, 0 <= maxz l.
Proof. induction l; cbn [maxz fold_right]; [lia|]. fold (maxz l). lia. Qed.
Lemma maxz_in : forall l x, In x l -> x <= maxz l.
Proof. induction l; intros x []; cbn [maxz fold_right]; fold (maxz l); [lia|]. specialize (IHl _ H). lia. Qed.

Lemma sheet_lines_spec : forall fuel sprites w h W H ofs, (length sprites <= fuel)%nat ->
  sheet_lines fuel w h sprites = (W, H, ofs) ->
  w <= W /\ h <= H /\
  forall r, (sheet_N * r < length sprites)%nat ->
    h <= nth r ofs 0
    /\ nth r ofs 0 + 10 + maxz (map snd (row_of sprites r)) <= H
    /\ sumz (map fst (row_of sprites r)) + 80 <= W
    /\ forall r', (r < r')%nat -> (sheet_N * r' < length sprites)%nat ->
         nth r ofs 0 + 10 + maxz (map snd (row_of sprites r)) <= nth r' ofs 0.
Proof.
  induction fuel as [|fuel IH]; intros sprites w h W H ofs L E.
  - destruct sprites; [|cbn in L; lia]. cbn in E. injection E as <- <- <-.
    split; [lia|]. split; [lia|]. intros r Hr. cbn [length] in Hr. lia.
  - destruct sprites as [|s sprites].
    + cbn in E. injection E as <- <- <-.
      split; [lia|]. split; [lia|]. intros r Hr. cbn [length] in Hr. lia.
    + remember (s :: sprites) as all eqn:EA.
      assert (E' : (let row := firstn sheet_N all in
        let lw := sumz (map fst row) + PADDING * 2 * Z.of_nat sheet_N in
        let lh := PADDING * 2 + maxz (map snd row) in
        let '(w', h', ofs) := sheet_lines fuel (Z.max w lw) (h + lh) (skipn sheet_N all) in
        (w', h', h :: ofs)) = (W, H, ofs)) by (rewrite <- E, EA; reflexivity).
      clear E. cbn zeta in E'.
      destruct (sheet_lines fuel _ _ (skipn sheet_N all)) as [[W' H'] ofs'] eqn:R.
      injection E' as -> -> <-.
      assert (Hl : (length all <= S fuel)%nat) by exact L.
      assert (Hn : (1 <= length all)%nat) by (rewrite EA; cbn; lia).
      apply IH in R; [|rewrite skipn_length; unfold sheet_N; lia].
      destruct R as (R1 & R2 & R3). change (PADDING * 2 * Z.of_nat sheet_N) with 80 in *. change (PADDING * 2) with 10 in *.
      pose proof (maxz_nonneg (map snd (firstn sheet_N all))) as M.
      split; [lia|]. split; [lia|]. intros r Hr.
      assert (Sh : forall r, row_of (skipn sheet_N all) r = row_of all (S r)).
      { intros k. unfold row_of. rewrite skipn_skipn'. f_equal. f_equal. lia. }
      destruct r as [|r].
      * change (row_of all 0) with (firstn sheet_N all). cbn [nth].
        split; [lia|]. split; [lia|]. split; [lia|].
        intros r' H1 H2. destruct r' as [|r']; [lia|]. cbn [nth].
        destruct (R3 r') as (Q & _). { rewrite skipn_length. lia. } lia.
      * destruct (R3 r) as (Q1 & Q2 & Q3 & Q4). { rewrite skipn_length. lia. }
        rewrite Sh in *. cbn [nth]. split; [lia|]. split; [lia|]. split; [lia|].
        intros r' H1 H2. destruct r' as [|r']; [lia|]. cbn [nth]. apply Q4; [lia|]. rewrite skipn_length. lia.
Qed.

Lemma sheet_place_index : forall lo sk sprites i x0,
  map fst (sheet_place lo sk i x0 sprites) = filter (fun j => negb (sk j)) (seq i (length sprites)).
Proof.
  intros lo sk; induction sprites as [|[w h] sprites IH]; intros i x0; [reflexivity|].
  cbn [sheet_place length seq filter]. destruct (sk i); cbn [negb].
  - apply IH.
  - cbn [map fst]. f_equal. apply IH.
Qed.

Lemma sheet_place_y : forall lo sk sprites i x0 j x y,
  In (j, (x, y)) (sheet_place lo sk i x0 sprites) ->
  (i <= j < i + length sprites)%nat /\ y = 5 + nth (j / sheet_N) lo 0.
Proof.
  intros lo sk; induction sprites as [|[w h] sprites IH]; intros i x0 j x y H; [destruct H|].
  cbn [sheet_place] in H. cbn [length]. destruct (sk i).
  - apply IH in H as [H1 H2]. split; [lia|exact H2].
  - destruct H as [H|H].
    + injection H as <- <- <-. split; [lia|reflexivity].
    + apply IH in H as [H1 H2]. split; [lia|exact H2].
Qed.

(** Sum of the widths before sprite [i] in its row, with padding. *)
Definition row_before (all : list (Z * Z)) (i : nat) : Z :=
  sumz (map fst (firstn (i mod sheet_N) (skipn (sheet_N * (i / sheet_N)) all))) + 10 * Z.of_nat (i mod sheet_N).

Lemma sumz_app : forall a b, sumz (a ++ b) = sumz a + sumz b.
Proof. unfold sumz. induction a as [|x a IH]; intros b; cbn [app fold_right]; [lia|]. rewrite IH. lia. Qed.
Lemma sumz_nonneg : forall l, Forall (fun x => 0 <= x) l -> 0 <= sumz l.
Proof. induction 1; cbn [sumz fold_right]; [lia|]. fold (sumz l). lia. Qed.

Lemma sum_firstn_mono : forall (l : list (Z * Z)) a k, Forall (fun s => 0 <= fst s) l -> (a <= k)%nat ->
  sumz (map fst (firstn a l)) <= sumz (map fst (firstn k l)).
Proof.
  intros l a k F H. replace k with (a + (k - a))%nat by lia.
  rewrite <- (firstn_skipn a (firstn (a + (k - a)) l)). rewrite firstn_firstn.
  rewrite Nat.min_l by lia. rewrite map_app, sumz_app.
  assert (0 <= sumz (map fst (skipn a (firstn (a + (k - a)) l)))); [|lia].
  apply sumz_nonneg. apply Forall_map. apply Forall_forall. intros x Hx.
  rewrite Forall_forall in F. apply F.
  rewrite <- (firstn_skipn (a + (k - a)) l). apply in_or_app. left.
  rewrite <- (firstn_skipn a (firstn (a + (k - a)) l)). apply in_or_app. right. exact Hx.
Qed.

Lemma firstn_snoc_nth : forall (l : list (Z * Z)) k s, nth_error l k = Some s -> firstn (S k) l = firstn k l ++ [s].
Proof.
  induction l as [|x l IH]; intros [|k] s H; try discriminate; cbn in H.
  - injection H as ->. reflexivity.
  - cbn [firstn app]. f_equal. apply IH, H.
Qed.
Lemma nth_error_skip : forall {A} n k (l : list A), nth_error (skipn n l) k = nth_error l (n + k).
Proof. intros A; induction n; intros k l; [reflexivity|]. destruct l; [destruct k; reflexivity|]. apply IHn. Qed.

Lemma row_before_next : forall all i w h, nth_error all i = Some (w, h) -> (S i mod sheet_N <> 0)%nat ->
  row_before all (S i) = row_before all i + w + 10.
Proof.
  intros all i w h E N. unfold row_before.
  assert (D : (S i / sheet_N = i / sheet_N /\ S i mod sheet_N = S (i mod sheet_N))%nat).
  { unfold sheet_N in *. pose proof (Nat.div_mod i 8 ltac:(lia)). pose proof (Nat.mod_upper_bound i 8 ltac:(lia)).
    pose proof (Nat.div_mod (S i) 8 ltac:(lia)). pose proof (Nat.mod_upper_bound (S i) 8 ltac:(lia)).
    split; lia. }
  destruct D as [D1 D2]. rewrite D1, D2.
  rewrite (firstn_snoc_nth _ _ (w, h)).
  - rewrite map_app, sumz_app. cbn [map fst sumz fold_right]. lia.
  - rewrite nth_error_skip. rewrite <- E. f_equal.
    symmetry. apply Nat.div_mod. unfold sheet_N. lia.
Qed.

Lemma row_before_zero : forall all i, (i mod sheet_N = 0)%nat -> row_before all i = 0.
Proof. intros all i E. unfold row_before. rewrite E. reflexivity. Qed.

Lemma sheet_place_x : forall lo sk all sprites i x0,
  sprites = skipn i all -> Forall (fun s => 0 <= fst s) all ->
  ((i mod sheet_N <> 0)%nat -> 5 <= x0 <= 5 + row_before all i) ->
  forall j x y, In (j, (x, y)) (sheet_place lo sk i x0 sprites) ->
  5 <= x <= 5 + row_before all j
  /\ ((i mod sheet_N <> 0)%nat -> (j / sheet_N = i / sheet_N)%nat -> x0 <= x).
Proof.
  intros lo sk all; induction sprites as [|[w h] sprites IH]; intros i x0 Es F X j x y H; [destruct H|].
  assert (Ei : nth_error all i = Some (w, h)).
  { pose proof (nth_error_skip i 0 all) as Q. rewrite <- Es, Nat.add_0_r in Q. symmetry. exact Q. }
  assert (Es' : sprites = skipn (S i) all).
  { replace (S i) with (i + 1)%nat by lia. rewrite <- skipn_skipn', <- Es. reflexivity. }
  assert (Hw : 0 <= w). { rewrite Forall_forall in F. exact (F _ (nth_error_In _ _ Ei)). }
  assert (X1 : 5 <= (if Nat.eqb (i mod sheet_N) 0 then PADDING else x0) <= 5 + row_before all i).
  { destruct (Nat.eqb (i mod sheet_N) 0) eqn:Q.
    - apply Nat.eqb_eq in Q. rewrite (row_before_zero _ _ Q). unfold PADDING. lia.
    - apply Nat.eqb_neq in Q. apply X, Q. }
  cbn [sheet_place] in H.
  set (x1 := if Nat.eqb (i mod sheet_N) 0 then PADDING else x0) in *.
  assert (X1e : (i mod sheet_N <> 0)%nat -> x1 = x0).
  { intros N. unfold x1. apply Nat.eqb_neq in N. rewrite N. reflexivity. }
  assert (Div : (S i mod sheet_N <> 0 -> S i / sheet_N = i / sheet_N)%nat).
  { unfold sheet_N. intros N. pose proof (Nat.div_mod i 8 ltac:(lia)). pose proof (Nat.mod_upper_bound i 8 ltac:(lia)).
    pose proof (Nat.div_mod (S i) 8 ltac:(lia)). pose proof (Nat.mod_upper_bound (S i) 8 ltac:(lia)). lia. }
  assert (Div0 : (S i mod sheet_N = 0 -> S i / sheet_N = S (i / sheet_N))%nat).
  { unfold sheet_N. intros N. pose proof (Nat.div_mod i 8 ltac:(lia)). pose proof (Nat.mod_upper_bound i 8 ltac:(lia)).
    pose proof (Nat.div_mod (S i) 8 ltac:(lia)). lia. }
  assert (Rec : forall x2, x1 <= x2 <= x1 + w + 10 ->
    In (j, (x, y)) (sheet_place lo sk (S i) x2 sprites) ->
    5 <= x <= 5 + row_before all j /\ ((i mod sheet_N <> 0)%nat -> (j / sheet_N = i / sheet_N)%nat -> x0 <= x)).
  { intros x2 Hx2 Hin.
    destruct (IH (S i) x2 Es' F) with (j := j) (x := x) (y := y) as [A B]; [|exact Hin|].
    { intros N. rewrite (row_before_next _ _ _ _ Ei N). lia. }
    split; [exact A|]. intros N Ej.
    destruct (Nat.eq_dec (S i mod sheet_N) 0) as [Z0|Z0].
    - apply sheet_place_y in Hin as [Hin _].
      assert (S i / sheet_N <= j / sheet_N)%nat by (apply Nat.div_le_mono; [unfold sheet_N; lia|lia]).
      rewrite (Div0 Z0) in H0. lia.
    - rewrite <- (X1e N). specialize (B Z0). rewrite (Div Z0) in B. specialize (B Ej). lia. }
  destruct (sk i).
  - apply (Rec x1); [lia|exact H].
  - destruct H as [H|H].
    + injection H as <- <- <-. split; [exact X1|]. intros N _. rewrite (X1e N). lia.
    + apply (Rec (x1 + w + 2 * PADDING)); [unfold PADDING; lia|exact H].
Qed.

Lemma nth_error_row : forall all j (s : Z * Z), nth_error all j = Some s -> In s (row_of all (j / sheet_N)).
Proof.
  intros all j s E. unfold row_of.
  assert (Q : nth_error (firstn sheet_N (skipn (sheet_N * (j / sheet_N)) all)) (j mod sheet_N) = Some s).
  { rewrite <- E. 
    assert (Hm : (j mod sheet_N < sheet_N)%nat) by (apply Nat.mod_upper_bound; unfold sheet_N; lia).
    assert (G : forall n k (l : list (Z * Z)), (k < n)%nat -> nth_error (firstn n l) k = nth_error l k).
    { clear. induction n; intros k l H; [lia|]. destruct l, k; try reflexivity; cbn; []. apply IHn. lia. }
    rewrite G by exact Hm. rewrite nth_error_skip. f_equal. symmetry. apply Nat.div_mod. unfold sheet_N. lia. }
  exact (nth_error_In _ _ Q).
Qed.

Lemma row_before_fits : forall all j w h, nth_error all j = Some (w, h) -> Forall (fun s => 0 <= fst s) all ->
  row_before all j + w + 10 <= sumz (map fst (row_of all (j / sheet_N))) + 80.
Proof.
  intros all j w h E F. unfold row_before, row_of.
  set (row := skipn (sheet_N * (j / sheet_N)) all).
  assert (Hm : (j mod sheet_N < sheet_N)%nat) by (apply Nat.mod_upper_bound; unfold sheet_N; lia).
  assert (Er : nth_error row (j mod sheet_N) = Some (w, h)).
  { unfold row. rewrite nth_error_skip, <- E. f_equal. symmetry. apply Nat.div_mod. unfold sheet_N. lia. }
  assert (Fr : Forall (fun s : Z * Z => 0 <= fst s) row).
  { apply Forall_forall. intros s Hs. rewrite Forall_forall in F. apply F.
    rewrite <- (firstn_skipn (sheet_N * (j / sheet_N)) all). apply in_or_app. right. exact Hs. }
  pose proof (sum_firstn_mono row (S (j mod sheet_N)) sheet_N Fr ltac:(lia)) as M.
  rewrite (firstn_snoc_nth _ _ _ Er), map_app, sumz_app in M. cbn [map fst sumz fold_right] in M.
  unfold sheet_N in *. lia.
Qed.
