(** Proofs about animated previews. *)
From Coq Require Import ZArith List Bool Lia Permutation.
From Verif Require Import Base BaseFacts SpriteModel SpecDecode SpecSprite LibModel SpecLib PaletteData TreeModel SpecTree SpecLayers LayerProofs PreviewModel SpecPreview.
Import ListNotations.
Open Scope Z_scope.

(** ** Arithmetic of the counter *)
Lemma extr_turn p q c : extr p q c = turn c p q.
Proof. unfold extr, turn. rewrite Z.shiftr_div_pow2 by lia. change 65535 with (Z.ones 16). rewrite Z.land_ones by lia. reflexivity. Qed.
Lemma extr2_turn p q c : extr2 p q c = turn (- c - 1) p q.
Proof.
  unfold extr2, turn. rewrite Z.shiftr_div_pow2 by lia. change 65535 with (Z.ones 16). rewrite Z.land_ones by lia.
  replace (Z.lnot c) with (- c - 1) by (unfold Z.lnot; lia). reflexivity.
Qed.
Lemma turn_range c p q : 0 < q -> 0 <= turn c p q < q.
Proof.
  intros Q. unfold turn. pose proof (Z.mod_pos_bound (c * p) 65536 ltac:(lia)). split; [apply Z.div_pos; nia|].
  apply Z.div_lt_upper_bound; nia.
Qed.
Lemma turn_period c p q L n : (8 * L * p) mod 65536 = 0 -> 0 < L -> turn (8 * (n mod L) + c) p q = turn (8 * n + c) p q.
Proof.
  intros D L0. unfold turn. f_equal. f_equal.
  apply Z.mod_divide in D; [|lia]. destruct D as [d D].
  rewrite (Z.div_mod n L) at 2 by lia.
  replace ((8 * (L * (n / L) + n mod L) + c) * p) with ((8 * (n mod L) + c) * p + (n / L * d) * 65536) by (replace (n / L * d * 65536) with (n / L * (8 * L * p)) by (rewrite D; ring); ring).
  rewrite Z.mod_add by lia. reflexivity.
Qed.
Lemma turn_period_neg p q L n : (8 * L * p) mod 65536 = 0 -> 0 < L -> turn (- (8 * (n mod L)) - 1) p q = turn (- (8 * n) - 1) p q.
Proof.
  intros D L0. unfold turn. f_equal. f_equal.
  apply Z.mod_divide in D; [|lia]. destruct D as [d D].
  rewrite (Z.div_mod n L) at 2 by lia.
  replace ((- (8 * (L * (n / L) + n mod L)) - 1) * p) with ((- (8 * (n mod L)) - 1) * p + (- (n / L * d)) * 65536)
    by (replace (- (n / L * d) * 65536) with (- (n / L * (8 * L * p))) by (rewrite D; ring); ring).
  rewrite Z.mod_add by lia. reflexivity.
Qed.

(** ** Lists *)
Lemma splice_length {A} a (v l : list A) : (a + length v <= length l)%nat -> length (splice a v l) = length l.
Proof. intros H. unfold splice. rewrite !app_length, firstn_length, skipn_length. lia. Qed.
Lemma splice_in {A} a (v l : list A) k d : (a + length v <= length l)%nat -> (k < length v)%nat -> nth (a + k) (splice a v l) d = nth k v d.
Proof.
  intros H K. unfold splice. rewrite app_nth2; rewrite firstn_length_le by lia; [|lia]. replace (a + k - a)%nat with k by lia.
  apply app_nth1. exact K.
Qed.
Lemma nth_skipn' {A} n (l : list A) k d : nth k (skipn n l) d = nth (n + k) l d.
Proof. revert l. induction n as [|n IH]; intros [|x l]; cbn; try reflexivity; [destruct k; reflexivity|apply IH]. Qed.
Lemma splice_out {A} a (v l : list A) i d : (a + length v <= length l)%nat -> (i < a \/ a + length v <= i)%nat -> nth i (splice a v l) d = nth i l d.
Proof.
  intros H [K|K]; unfold splice.
  - rewrite app_nth1 by (rewrite firstn_length_le; lia). clear H. revert i a K. induction l as [|x l IH]; intros i [|a] K; try lia; [destruct i; reflexivity|].
    destruct i; cbn; [reflexivity|apply IH; lia].
  - rewrite app_nth2; rewrite firstn_length_le by lia; [|lia]. rewrite app_nth2 by lia. rewrite nth_skipn'. f_equal. lia.
Qed.

Lemma same_colour_eq a b : same_colour a b = true <-> a = b.
Proof.
  destruct a as [[r g] b0], b as [[r2 g2] b2]. cbn [same_colour]. split; [intros H|intros E; injection E as -> -> ->; rewrite !Z.eqb_refl; reflexivity].
  rewrite !andb_true_iff, !Z.eqb_eq in H. destruct H as [[-> ->] ->]. reflexivity.
Qed.
Lemma position_ok c l : In c l -> exists i, position c l = Some i /\ (i < length l)%nat /\ nth i l (0, 0, 0) = c.
Proof.
  induction l as [|x l IH]; [intros []|]. intros I. cbn [position eqb_colour]. unfold eqb_colour.
  destruct (same_colour x c) eqn:E; [apply same_colour_eq in E; subst x; exists 0%nat; cbn; repeat split; lia|].
  destruct I as [->|I]; [rewrite (proj2 (same_colour_eq c c) eq_refl) in E; discriminate E|].
  destruct (IH I) as (i & -> & L & N). exists (S i). cbn. repeat split; [lia|exact N].
Qed.
Lemma map_opt_nth {A B} (f : A -> option B) l : (forall x, In x l -> exists y, f x = Some y) ->
  exists r, map_opt f l = Some r /\ length r = length l /\ (forall i x, nth_error l i = Some x -> exists y, f x = Some y /\ nth_error r i = Some y).
Proof.
  induction l as [|x l IH]; intros H; cbn [map_opt].
  - exists []. repeat split. intros [|i] x E; discriminate E.
  - destruct (H x (or_introl eq_refl)) as [y E]. rewrite E. cbn [bind]. destruct (IH (fun x I => H x (or_intror I))) as (r & -> & L & N). cbn [bind].
    exists (y :: r). split; [reflexivity|]. split; [cbn; lia|]. intros [|i] z Z0; cbn [nth_error] in *; [exists y; split; [congruence|reflexivity]|exact (N i z Z0)].
Qed.

(** ** One rotating group of colours *)
Definition rotation (size step : nat) : Prop :=
  forall j (l : list nat), length l = (size * step)%nat -> (j < size * step)%nat ->
  stride j (length l) step l ++ stride (Nat.modulo j step) j step l =
  map (fun k => nth (Nat.modulo (j + step * k) (size * step)) l 0%nat) (seq 0 size).
Lemma rotation_5 : rotation 5 1. Proof. intros j l L J; do 5 (destruct l as [|? l]; [discriminate L|]); destruct l; [|discriminate L]; do 5 (destruct j as [|j]; [reflexivity|]); exfalso; cbn in J; lia. Qed.
Lemma rotation_7 : rotation 7 1. Proof. intros j l L J; do 7 (destruct l as [|? l]; [discriminate L|]); destruct l; [|discriminate L]; do 7 (destruct j as [|j]; [reflexivity|]); exfalso; cbn in J; lia. Qed.
Lemma rotation_4 : rotation 4 1. Proof. intros j l L J; do 4 (destruct l as [|? l]; [discriminate L|]); destruct l; [|discriminate L]; do 4 (destruct j as [|j]; [reflexivity|]); exfalso; cbn in J; lia. Qed.
Lemma rotation_15 : rotation 5 3. Proof. intros j l L J; do 15 (destruct l as [|? l]; [discriminate L|]); destruct l; [|discriminate L]; do 15 (destruct j as [|j]; [reflexivity|]); exfalso; cbn in J; lia. Qed.

Definition entry := (nat * nat * list colour * (Z -> Z) * nat * nat)%type.
Definition e_start (e : entry) : nat := let '(start, _, _, _, _, _) := e in start.
Definition e_size (e : entry) : nat := let '(_, size, _, _, _, _) := e in size.
Definition e_len (e : entry) : nat := let '(_, _, _, _, n, _) := e in n.

(** what makes a line of the table right *)
Definition entry_ok (e : entry) : Prop :=
  let '(start, size, colours, func, n, step) := e in
  (0 < start)%nat /\ (start + size <= 256)%nat /\ length colours = (size * step)%nat /\ rotation size step /\
  (exists distinct, incl colours distinct /\ length distinct = size) /\
  (forall c, 0 <= func c < Z.of_nat (size * step)) /\
  (forall i, func (8 * (i mod Z.of_nat n)) = func (8 * i)) /\
  In n [16; 32; 64; 128]%nat /\
  (forall c k, (k < size)%nat ->
     animated c (Z.of_nat (start + k)) = nth (Nat.modulo (Z.to_nat (func c) + step * k) (size * step)) colours (0, 0, 0)).

Definition good_cycle (pal : list colour) (e : entry) (c : cycle) : Prop :=
  c_start c = e_start e /\ c_size c = e_size e /\ length (c_res c) = e_len e /\
  forall i, length (row c i) = e_size e /\
    forall k, (k < e_size e)%nat -> (e_start e <= nth k (row c i) 0 < e_start e + e_size e)%nat /\
      nth (nth k (row c i) 0%nat) pal (0, 0, 0) = animated (8 * Z.of_nat i) (Z.of_nat (e_start e + k)).

Lemma init_cycle_ok so pal e : a_set_order so -> entry_ok e -> length pal = 256%nat ->
  let '(start, size, colours, func, n, step) := e in
  exists pal' c, init_cycle so pal start size colours func n step = Some (pal', c) /\ length pal' = 256%nat /\
    (forall i, (i < start \/ start + size <= i)%nat -> nth i pal' (0, 0, 0) = nth i pal (0, 0, 0)) /\ good_cycle pal' e c.
Proof.
  destruct e as [[[[[start size] colours] func] n] step]. intros SO (S0 & SB & LC & ROT & (distinct & INC & LD) & FR & FP & NN & AN) LP.
  destruct (SO colours) as [ND MEM]. unfold init_cycle.
  assert (LS : (length (so colours) <= size)%nat).
  { rewrite <- LD. apply NoDup_incl_length; [exact ND|]. intros c I. apply INC. apply MEM. exact I. }
  rewrite (proj2 (Nat.leb_le _ _) LS).
  assert (FI : forall x, In x colours -> exists y, option_map (fun i => (i + start)%nat) (position x (so colours)) = Some y).
  { intros x I. destruct (position_ok x (so colours) (proj2 (MEM x) I)) as (i & -> & _). eexists. reflexivity. }
  destruct (map_opt_nth _ _ FI) as (indexed & -> & LI & NI). cbn [bind].
  eexists _, _. split; [reflexivity|]. split; [rewrite splice_length; lia|].
  split; [intros i H; apply splice_out; lia|].
  set (pal' := splice start (so colours) pal).
  assert (PX : forall i x, nth_error colours i = Some x -> (start <= nth i indexed 0 < start + size)%nat /\ nth (nth i indexed 0%nat) pal' (0, 0, 0) = x).
  { intros i x E. destruct (NI i x E) as (y & P & Q).
    destruct (position_ok x (so colours) (proj2 (MEM x) (nth_error_In _ _ E))) as (t & PT & LT & NT). rewrite PT in P. cbn [option_map] in P. apply some_inj in P. subst y.
    apply nth_error_nth with (d := 0%nat) in Q. rewrite Q. split; [lia|]. rewrite (Nat.add_comm t start). unfold pal'. rewrite splice_in by lia. exact NT. }
  unfold good_cycle. cbn [c_start c_size c_res e_start e_size e_len].
  split; [reflexivity|]. split; [reflexivity|]. split; [rewrite map_length, seq_length; reflexivity|].
  intros i. assert (N0 : (0 < n)%nat) by (cbn in NN; lia).
  assert (R : row (mk_cycle start size (map (fun c : nat => stride (Z.to_nat (func (8 * Z.of_nat c))) (length indexed) step indexed ++
               stride (Z.to_nat (func (8 * Z.of_nat c)) mod step) (Z.to_nat (func (8 * Z.of_nat c))) step indexed) (seq 0 n))) i =
              map (fun k => nth (Nat.modulo (Z.to_nat (func (8 * Z.of_nat i)) + step * k) (size * step)) indexed 0%nat) (seq 0 size)).
  { unfold row. cbn [c_res]. rewrite map_length, seq_length. pose proof (Nat.mod_upper_bound i n ltac:(lia)) as U.
    set (g := fun c : nat => stride (Z.to_nat (func (8 * Z.of_nat c))) (length indexed) step indexed ++
               stride (Z.to_nat (func (8 * Z.of_nat c)) mod step) (Z.to_nat (func (8 * Z.of_nat c))) step indexed).
    rewrite (nth_indep _ [] (g 0%nat)) by (rewrite map_length, seq_length; exact U). rewrite map_nth, seq_nth by exact U. cbn [Nat.add]. unfold g.
    rewrite Nat2Z.inj_mod, FP. apply ROT; [lia|]. specialize (FR (8 * Z.of_nat i)). lia. }
  rewrite R. split; [rewrite map_length, seq_length; reflexivity|]. intros k K.
  set (h := fun k => nth (Nat.modulo (Z.to_nat (func (8 * Z.of_nat i)) + step * k) (size * step)) indexed 0%nat).
  rewrite (nth_indep _ 0%nat (h 0%nat)) by (rewrite map_length, seq_length; exact K). rewrite map_nth, seq_nth by exact K. cbn [Nat.add]. unfold h.
  rewrite (AN _ _ K). set (t := Nat.modulo (Z.to_nat (func (8 * Z.of_nat i)) + step * k) (size * step)).
  assert (T : (t < length colours)%nat) by (rewrite LC; apply Nat.mod_upper_bound; specialize (FR 0); lia).
  apply PX. apply nth_error_nth'. exact T.
Qed.

(** ** The table *)
Lemma nth_entry (l : list colour) (a : Z) k step N : 0 <= a -> len l = Z.of_nat N -> (0 < N)%nat ->
  nth (Z.to_nat ((a + Z.of_nat step * Z.of_nat k) mod len l)) l (0, 0, 0) = nth (Nat.modulo (Z.to_nat a + step * k) N) l (0, 0, 0).
Proof.
  intros A L N0. f_equal. rewrite L. replace (a + Z.of_nat step * Z.of_nat k) with (Z.of_nat (Z.to_nat a + step * k)) by lia.
  rewrite <- Nat2Z.inj_mod, Nat2Z.id. reflexivity.
Qed.

Lemma animated_232 c k : 0 <= k < 7 -> animated c (232 + k) = nth (Z.to_nat ((turn (- c - 1) 512 7 + k) mod len OIL_REFINERY_AND_FIRE)) OIL_REFINERY_AND_FIRE (0, 0, 0).
Proof.
  intros K. unfold animated.
  replace (232 + k <=? 231) with false by lia. rewrite andb_false_r.
  replace (232 <=? 232 + k) with true by lia. replace (232 + k <=? 238) with true by lia. cbn [andb].
  replace (232 + k - 232) with k by lia. reflexivity.
Qed.
Lemma animated_241 c k : 0 <= k < 4 -> animated c (241 + k) = nth (Z.to_nat ((turn c 256 4 + k) mod len LIGHTHOUSE_AND_STADIUM)) LIGHTHOUSE_AND_STADIUM (0, 0, 0).
Proof.
  intros K. unfold animated.
  replace (241 + k <=? 231) with false by lia. rewrite andb_false_r.
  replace (241 + k <=? 238) with false by lia. rewrite andb_false_r.
  replace (241 <=? 241 + k) with true by lia. replace (241 + k <=? 244) with true by lia. cbn [andb].
  replace (241 + k - 241) with k by lia. reflexivity.
Qed.
Lemma animated_245 c k : 0 <= k < 5 -> animated c (245 + k) = nth (Z.to_nat ((turn c 320 5 + k) mod len DARK_BLUE_WATER)) DARK_BLUE_WATER (0, 0, 0).
Proof.
  intros K. unfold animated.
  replace (245 + k <=? 231) with false by lia. rewrite andb_false_r.
  replace (245 + k <=? 238) with false by lia. rewrite andb_false_r.
  replace (245 + k <=? 244) with false by lia. rewrite andb_false_r.
  replace (245 <=? 245 + k) with true by lia. replace (245 + k <=? 249) with true by lia. cbn [andb].
  replace (245 + k - 245) with k by lia. reflexivity.
Qed.
Lemma animated_250 c k : 0 <= k < 5 -> animated c (250 + k) = nth (Z.to_nat ((turn c 128 15 + 3 * k) mod len GLITTERY_WATER)) GLITTERY_WATER (0, 0, 0).
Proof.
  intros K. unfold animated.
  replace (250 + k <=? 231) with false by lia. rewrite andb_false_r.
  replace (250 + k <=? 238) with false by lia. rewrite andb_false_r.
  replace (250 + k <=? 244) with false by lia. rewrite andb_false_r.
  replace (250 + k <=? 249) with false by lia. rewrite andb_false_r.
  replace (250 <=? 250 + k) with true by lia. replace (250 + k <=? 254) with true by lia. cbn [andb].
  replace (250 + k - 250) with k by lia. reflexivity.
Qed.
Lemma table_ok : Forall entry_ok (skipn 1 CYCLES).
Proof.
  unfold CYCLES. cbn [skipn].
  constructor; [|constructor; [|constructor; [|constructor; [|constructor]]]]; unfold entry_ok.
  - repeat split; try lia; try reflexivity; try exact rotation_7.
    + exists OIL_REFINERY_AND_FIRE. split; [apply incl_refl|reflexivity].
    + rewrite extr2_turn. apply turn_range. lia.
    + rewrite extr2_turn. apply turn_range. lia.
    + intros i. rewrite !extr2_turn. apply turn_period_neg; [reflexivity|lia].
    + cbn. tauto.
    + intros c k K. rewrite extr2_turn. pose proof (turn_range (- c - 1) 512 7 ltac:(lia)).
      rewrite <- (nth_entry OIL_REFINERY_AND_FIRE (turn (- c - 1) 512 7) k 1 (7 * 1)) by (try lia; reflexivity).
      rewrite Nat2Z.inj_add. change (Z.of_nat 232) with 232. change (Z.of_nat 1) with 1. rewrite (animated_232 c (Z.of_nat k)) by lia. rewrite ?Z.mul_1_l. reflexivity.
  - repeat split; try lia; try reflexivity; try exact rotation_4.
    + exists LIGHTHOUSE_AND_STADIUM. split; [apply incl_refl|reflexivity].
    + rewrite extr_turn. apply turn_range. lia.
    + rewrite extr_turn. apply turn_range. lia.
    + intros i. rewrite !extr_turn. pose proof (turn_period 0 256 4 32 i eq_refl ltac:(lia)) as P. rewrite !Z.add_0_r in P. exact P.
    + cbn. tauto.
    + intros c k K. rewrite extr_turn. pose proof (turn_range c 256 4 ltac:(lia)).
      rewrite <- (nth_entry LIGHTHOUSE_AND_STADIUM (turn c 256 4) k 1 (4 * 1)) by (try lia; reflexivity).
      rewrite Nat2Z.inj_add. change (Z.of_nat 241) with 241. change (Z.of_nat 1) with 1. rewrite (animated_241 c (Z.of_nat k)) by lia. rewrite ?Z.mul_1_l. reflexivity.
  - repeat split; try lia; try reflexivity; try exact rotation_5.
    + exists DARK_BLUE_WATER. split; [apply incl_refl|reflexivity].
    + rewrite extr_turn. apply turn_range. lia.
    + rewrite extr_turn. apply turn_range. lia.
    + intros i. rewrite !extr_turn. pose proof (turn_period 0 320 5 128 i eq_refl ltac:(lia)) as P. rewrite !Z.add_0_r in P. exact P.
    + cbn. tauto.
    + intros c k K. rewrite extr_turn. pose proof (turn_range c 320 5 ltac:(lia)).
      rewrite <- (nth_entry DARK_BLUE_WATER (turn c 320 5) k 1 (5 * 1)) by (try lia; reflexivity).
      rewrite Nat2Z.inj_add. change (Z.of_nat 245) with 245. change (Z.of_nat 1) with 1. rewrite (animated_245 c (Z.of_nat k)) by lia. rewrite ?Z.mul_1_l. reflexivity.
  - repeat split; try lia; try reflexivity; try exact rotation_15.
    + exists (firstn 5 GLITTERY_WATER). split; [|reflexivity]. intros c I. cbn in I |- *. tauto.
    + rewrite extr_turn. apply turn_range. lia.
    + rewrite extr_turn. apply turn_range. lia.
    + intros i. rewrite !extr_turn. pose proof (turn_period 0 128 15 64 i eq_refl ltac:(lia)) as P. rewrite !Z.add_0_r in P. exact P.
    + cbn. tauto.
    + intros c k K. rewrite extr_turn. pose proof (turn_range c 128 15 ltac:(lia)).
      rewrite <- (nth_entry GLITTERY_WATER (turn c 128 15) k 3 (5 * 3)) by (try lia; reflexivity).
      rewrite Nat2Z.inj_add. change (Z.of_nat 250) with 250. change (Z.of_nat 3) with 3. rewrite (animated_250 c (Z.of_nat k)) by lia. rewrite ?Z.mul_1_l. reflexivity.
Qed.

(** ** All groups *)
Definition chosen (hc : list bool) (e : entry) : bool :=
  existsb (fun b => b) (py_slice (Z.of_nat (e_start e) - 232) (Z.of_nat (e_start e) + Z.of_nat (e_size e) - 232) hc).
Definition inside (e : entry) (m : nat) : Prop := (e_start e <= m < e_start e + e_size e)%nat.
(** groups in ascending order *)
Inductive ascending : nat -> list entry -> Prop :=
| asc_nil : forall n, ascending n []
| asc_cons : forall n e t, (n <= e_start e)%nat -> ascending (e_start e + e_size e) t -> ascending n (e :: t).
Lemma ascending_weaken n n' t : (n' <= n)%nat -> ascending n t -> ascending n' t.
Proof. intros L A. destruct A; constructor; [lia|assumption]. Qed.
Lemma ascending_filter f n t : ascending n t -> ascending n (filter f t).
Proof.
  intros A. induction A as [n|n e t L A IH]; [constructor|]. cbn [filter]. destruct (f e); [constructor; [exact L|exact IH]|].
  apply (ascending_weaken (e_start e + e_size e)); [lia|exact IH].
Qed.
Lemma ascending_above n t e : ascending n t -> In e t -> (n <= e_start e)%nat.
Proof. intros A. induction A as [n|n e0 t L A IH]; [intros []|]. intros [->|I]; [exact L|specialize (IH I); lia]. Qed.

Lemma collect_ok so hc t : a_set_order so -> Forall entry_ok t -> forall pal n, length pal = 256%nat -> ascending n t ->
  exists pal' cs, collect so hc pal t = Some (pal', cs) /\ length pal' = 256%nat /\
    (forall m, (forall e, In e t -> chosen hc e = true -> ~ inside e m) -> nth m pal' (0, 0, 0) = nth m pal (0, 0, 0)) /\
    Forall2 (good_cycle pal') (filter (chosen hc) t) cs.
Proof.
  intros SO F. induction F as [|e t EO F IH]; intros pal n LP A.
  - exists pal, []. split; [reflexivity|]. split; [exact LP|]. split; [reflexivity|constructor].
  - inversion A as [|? ? ? L1 A1]; subst. cbn [filter].
    pose proof (init_cycle_ok so pal e SO EO LP) as IC. pose proof (eq_refl (chosen hc e)) as CH. unfold chosen in CH at 2.
    destruct e as [[[[[start size] colours] func] nn] step]. cbn [collect e_start e_size] in *. rewrite <- CH. clear CH.
    destruct (chosen hc (start, size, colours, func, nn, step)) eqn:CH.
    + destruct IC as (pal1 & c & -> & L2 & OUT & G). cbn [bind].
      destruct (IH pal1 _ L2 A1) as (pal' & cs & -> & L3 & OUT2 & G2). cbn [bind].
      exists pal', (c :: cs). split; [reflexivity|]. split; [exact L3|]. split.
      * intros m N. rewrite OUT2 by (intros e I; apply N; right; exact I). apply OUT.
        pose proof (N _ (or_introl eq_refl) CH) as Q. unfold inside in Q. cbn [e_start e_size] in Q. lia.
      * constructor; [|exact G2]. destruct G as (G1 & G2' & G3 & G4). split; [exact G1|]. split; [exact G2'|]. split; [exact G3|].
        intros i. destruct (G4 i) as [LR X]. split; [exact LR|]. intros k K. destruct (X k K) as [B E]. split; [exact B|]. rewrite <- E.
        apply OUT2. intros e I _ IN. unfold inside in IN. pose proof (ascending_above _ _ _ A1 I). cbn [e_start e_size] in *. lia.
    + destruct (IH pal _ LP A1) as (pal' & cs & -> & L3 & OUT2 & G2). exists pal', cs. split; [reflexivity|]. split; [exact L3|]. split; [|exact G2].
      intros m N. apply OUT2. intros e I. apply N. right. exact I.
Qed.

(** ** Frames *)
Lemma first_remap_ok pal t cs : Forall2 (good_cycle pal) t cs -> forall n remap, ascending n t ->
  (forall e, In e t -> (e_start e + e_size e <= 256)%nat) -> length remap = 256%nat ->
  exists r, first_remap cs remap = Some r /\ length r = 256%nat /\
    (forall m, (forall e, In e t -> ~ inside e m) -> nth m r 0%nat = nth m remap 0%nat) /\
    (forall e c, In (e, c) (combine t cs) -> forall k, (k < e_size e)%nat -> nth (e_start e + k) r 0%nat = nth k (row c 0) 0%nat).
Proof.
  intros F. induction F as [|e c t cs G F IH]; intros n remap A B L.
  - exists remap. split; [reflexivity|]. split; [exact L|]. split; [reflexivity|intros e c []].
  - inversion A as [|? ? ? L1 A1]; subst. cbn [first_remap]. unfold assign. destruct G as (G1 & G2 & G3 & G4). destruct (G4 0%nat) as [LR X].
    rewrite G1, G2, LR, Nat.eqb_refl. cbn [bind].
    pose proof (B e (or_introl eq_refl)) as BE.
    destruct (IH (e_start e + e_size e)%nat (splice (e_start e) (row c 0) remap) A1 (fun e I => B e (or_intror I))) as (r & -> & L2 & OUT & IN).
    { rewrite splice_length; lia. }
    exists r. split; [reflexivity|]. split; [exact L2|]. split.
    + intros m N. rewrite OUT by (intros e0 I; apply N; right; exact I). apply splice_out; [lia|].
      pose proof (N e (or_introl eq_refl)) as Q. unfold inside in Q. lia.
    + intros e0 c0 [E|I] k K; [injection E as <- <-|exact (IN e0 c0 I k K)].
      rewrite OUT; [rewrite splice_in by lia; reflexivity|]. intros e0 I Q. unfold inside in Q. pose proof (ascending_above _ _ _ A1 I). lia.
Qed.

Lemma later_remap_ok pal i t cs : Forall2 (good_cycle pal) t cs -> forall n cur remap fp, ascending n t -> (0 < cur)%nat ->
  (forall e, In e t -> (e_start e + e_size e <= 256)%nat) -> length remap = 256%nat -> length fp = cur ->
  exists r p, later_remap pal i cs cur remap fp = (r, p) /\ length r = 256%nat /\ (exists q, p = fp ++ q) /\
    (forall m, (forall e, In e t -> ~ inside e m) -> nth m r 0%nat = nth m remap 0%nat) /\
    (forall e c, In (e, c) (combine t cs) -> forall k, (k < e_size e)%nat ->
       (0 < nth (e_start e + k) r 0)%nat /\ nth_error p (nth (e_start e + k) r 0%nat) = Some (nth (nth k (row c i) 0%nat) pal (0, 0, 0))).
Proof.
  intros F. induction F as [|e c t cs G F IH]; intros n cur remap fp A C0 B L LF.
  - exists remap, fp. split; [reflexivity|]. split; [exact L|]. split; [exists []; rewrite app_nil_r; reflexivity|]. split; [reflexivity|intros e c []].
  - inversion A as [|? ? ? L1 A1]; subst. cbn [later_remap]. destruct G as (G1 & G2 & G3 & G4). destruct (G4 i) as [LR X]. rewrite G1, G2.
    pose proof (B e (or_introl eq_refl)) as BE.
    set (fp' := fp ++ map (fun k => nth k pal (0, 0, 0)) (row c i)).
    destruct (IH (e_start e + e_size e)%nat (length fp + e_size e)%nat (splice (e_start e) (seq (length fp) (e_size e)) remap) fp' A1) as (r & p & -> & L2 & (q & Q) & OUT & IN).
    { lia. } { intros e0 I. apply B. right. exact I. } { rewrite splice_length; rewrite ?seq_length; lia. } { unfold fp'. rewrite app_length, map_length. lia. }
    exists r, p. split; [reflexivity|]. split; [exact L2|]. split; [exists (map (fun k => nth k pal (0, 0, 0)) (row c i) ++ q); rewrite Q; unfold fp'; rewrite app_assoc; reflexivity|]. split.
    + intros m N. rewrite OUT by (intros e0 I; apply N; right; exact I). apply splice_out; rewrite seq_length; [lia|].
      pose proof (N e (or_introl eq_refl)) as QQ. unfold inside in QQ. lia.
    + intros e0 c0 [E|I] k K; [injection E as <- <-|exact (IN e0 c0 I k K)].
      assert (V : nth (e_start e + k) r 0%nat = (length fp + k)%nat).
      { rewrite OUT; [rewrite splice_in by (rewrite seq_length; lia); apply seq_nth; exact K|].
        intros e0 I QQ. unfold inside in QQ. pose proof (ascending_above _ _ _ A1 I). lia. }
      rewrite V. split; [lia|]. rewrite Q. unfold fp'. rewrite nth_error_app1 by (rewrite app_length, map_length; lia).
      rewrite nth_error_app2 by lia. replace (length fp + k - length fp)%nat with k by lia. rewrite nth_error_map.
      rewrite (nth_error_nth' _ 0%nat) by lia. reflexivity.
Qed.

Lemma map_opt_inv {A B} (f : A -> option B) l : forall r, map_opt f l = Some r ->
  length r = length l /\ (forall i x, nth_error l i = Some x -> exists y, f x = Some y /\ nth_error r i = Some y).
Proof.
  induction l as [|x l IH]; intros r E; cbn [map_opt] in E.
  - apply some_inj in E. subst r. split; [reflexivity|]. intros [|i] x E; discriminate E.
  - destruct (f x) as [y|] eqn:F; [|discriminate E]. cbn [bind] in E. destruct (map_opt f l) as [r0|]; [|discriminate E]. cbn [bind] in E.
    apply some_inj in E. subst r. destruct (IH r0 eq_refl) as [L N]. split; [cbn; lia|].
    intros [|i] z Z0; cbn [nth_error] in *; [exists y; split; [congruence|reflexivity]|exact (N i z Z0)].
Qed.

(** ** Which groups are chosen *)
Definition TABLE : list entry := skipn 1 CYCLES.
Lemma hc_length mask : length (has_colors mask) = 23%nat.
Proof. unfold has_colors. rewrite map_length, seq_length. reflexivity. Qed.
Lemma hc_nth mask k : (k < 23)%nat -> nth k (has_colors mask) false = existsb (existsb (fun p => nth 0 p 0 =? 232 + Z.of_nat k)) mask.
Proof.
  intros K. unfold has_colors. set (g := fun k0 => existsb (existsb (fun p => nth 0 p 0 =? 232 + Z.of_nat k0)) mask).
  rewrite (nth_indep _ false (g 0%nat)) by (rewrite map_length, seq_length; exact K). rewrite map_nth, seq_nth by exact K. reflexivity.
Qed.
Lemma occurs_hc mask k : (k < 23)%nat -> nth k (has_colors mask) false = true <-> occurs mask (232 + Z.of_nat k).
Proof.
  intros K. rewrite hc_nth by exact K. rewrite existsb_exists. split.
  - intros (r & R & E). apply existsb_exists in E as (p & P & Q). apply Z.eqb_eq in Q. exists r, p. auto.
  - intros (r & p & R & P & Q). exists r. split; [exact R|]. apply existsb_exists. exists p. split; [exact P|]. apply Z.eqb_eq. exact Q.
Qed.
Lemma py_slice_plain {A} a b (l : list A) : 0 <= a -> a <= b -> b <= len l -> py_slice a b l = firstn (Z.to_nat (b - a)) (skipn (Z.to_nat a) l).
Proof.
  intros A0 AB BL. unfold py_slice. rewrite (proj2 (Z.ltb_ge a 0)), (proj2 (Z.ltb_ge b 0)) by lia. rewrite !Z.min_l by lia. reflexivity.
Qed.
Lemma in_slice {A} n k (l : list A) x d : In x (firstn n (skipn k l)) <-> exists i, (i < n)%nat /\ (k + i < length l)%nat /\ nth (k + i) l d = x.
Proof.
  split.
  - intros I. apply (In_nth _ _ d) in I as (i & L & E). rewrite firstn_length, skipn_length in L. exists i. split; [lia|]. split; [lia|].
    rewrite <- E. rewrite <- nth_skipn'. symmetry. clear E. revert L. generalize (skipn k l). intros l0 L.
    assert (H : (i < n)%nat) by lia. clear L. revert i n H. induction l0 as [|y l0 IH]; intros i n H; [destruct n, i; reflexivity|].
    destruct n as [|n]; [lia|]. destruct i; cbn; [reflexivity|apply IH; lia].
  - intros (i & N & L & <-). rewrite <- nth_skipn'. 
    assert (LS : (i < length (skipn k l))%nat) by (rewrite skipn_length; lia). revert LS. generalize (skipn k l). clear - N. intros l L.
    revert i n N L. induction l as [|x l IH]; intros i [|n] H L; cbn in L; try lia. destruct i; cbn; [left; reflexivity|right; apply IH; lia].
Qed.
Lemma chosen_iff mask e : (232 <= e_start e)%nat -> (e_start e + e_size e <= 255)%nat ->
  chosen (has_colors mask) e = true <-> exists m, inside e m /\ occurs mask (Z.of_nat m).
Proof.
  intros S E. unfold chosen. rewrite py_slice_plain by (unfold len; rewrite ?hc_length; lia). rewrite existsb_exists. split.
  - intros (b & I & ->). apply (in_slice _ _ _ _ false) in I as (i & I1 & I2 & I3). rewrite hc_length in I2.
    apply occurs_hc in I3; [|lia]. exists (e_start e + i)%nat. split; [unfold inside; lia|].
    replace (Z.of_nat (e_start e + i)) with (232 + Z.of_nat (Z.to_nat (Z.of_nat (e_start e) - 232) + i)) by lia. exact I3.
  - intros (m & I & O). exists true. split; [|reflexivity]. unfold inside in I. apply (in_slice _ _ _ _ false). exists (m - e_start e)%nat.
    rewrite hc_length. split; [lia|]. split; [lia|]. apply occurs_hc; [lia|].
    replace (232 + Z.of_nat (Z.to_nat (Z.of_nat (e_start e) - 232) + (m - e_start e))) with (Z.of_nat m) by lia. exact O.
Qed.
Lemma table_ranges e : In e TABLE -> (232 <= e_start e)%nat /\ (e_start e + e_size e <= 255)%nat.
Proof. intros I. cbn in I. repeat (destruct I as [<-|I]; [cbn; lia|]). destruct I. Qed.
Lemma table_ascending : ascending 232 TABLE.
Proof. unfold TABLE, CYCLES. cbn [skipn]. repeat (constructor; [cbn; lia|]). constructor. Qed.
Lemma table_covers m : 232 <= Z.of_nat m -> Z.of_nat m <> 239 -> Z.of_nat m <> 240 -> Z.of_nat m <= 254 -> exists e, In e TABLE /\ inside e m.
Proof.
  intros A B C D.
  destruct (Z.le_gt_cases (Z.of_nat m) 238); [eexists; split; [left; reflexivity|unfold inside; cbn; lia]|].
  destruct (Z.le_gt_cases (Z.of_nat m) 244); [eexists; split; [right; left; reflexivity|unfold inside; cbn; lia]|].
  destruct (Z.le_gt_cases (Z.of_nat m) 249); [eexists; split; [right; right; left; reflexivity|unfold inside; cbn; lia]|].
  eexists; split; [right; right; right; left; reflexivity|unfold inside; cbn; lia].
Qed.
Lemma table_avoids e m : In e TABLE -> inside e m -> Z.of_nat m <> 239 /\ Z.of_nat m <> 240.
Proof. intros I. cbn in I. repeat (destruct I as [<-|I]; [unfold inside; cbn; lia|]). destruct I. Qed.
Lemma collect_table so mask pal : collect so (has_colors mask) pal CYCLES = collect so (has_colors mask) pal TABLE.
Proof.
  unfold TABLE, CYCLES. cbn [skipn].
  assert (E : py_slice (Z.of_nat 227 - 232) (Z.of_nat 227 + Z.of_nat 5 - 232) (has_colors mask) = []).
  { unfold py_slice, len. rewrite hc_length. reflexivity. }
  cbn [collect]. rewrite E. reflexivity.
Qed.
Lemma radio mask : existsb (fun b => b) (py_slice 7 9 (has_colors mask)) = true <-> occurs mask 239 \/ occurs mask 240.
Proof.
  rewrite py_slice_plain by (unfold len; rewrite ?hc_length; lia). rewrite existsb_exists. split.
  - intros (b & I & ->). apply (in_slice _ _ _ _ false) in I as (i & I1 & I2 & I3). rewrite hc_length in I2. change (Z.to_nat (9 - 7)) with 2%nat in I1.
    change (Z.to_nat 7) with 7%nat in *. apply occurs_hc in I3; [|lia].
    destruct i as [|[|i]]; [left; exact I3|right; exact I3|lia].
  - intros [O|O]; exists true; (split; [|reflexivity]); apply (in_slice _ _ _ _ false); [exists 0%nat|exists 1%nat]; rewrite hc_length;
      (split; [lia|]); (split; [lia|]); apply occurs_hc; try lia; exact O.
Qed.

(** ** Number of frames *)
Lemma max_in (l : list nat) : forall a, In (fold_left Nat.max l a) (a :: l).
Proof.
  induction l as [|x l IH]; intros a; [left; reflexivity|]. cbn [fold_left]. destruct (IH (Nat.max a x)) as [E|I].
  - rewrite <- E. destruct (Nat.max_spec a x) as [[_ ->]|[_ ->]]; cbn; tauto.
  - right. right. exact I.
Qed.
Lemma max_above (l : list nat) : forall a x, In x (a :: l) -> (x <= fold_left Nat.max l a)%nat.
Proof.
  induction l as [|y l IH]; intros a x [->|I]; cbn [fold_left]; [lia|destruct I| |].
  - pose proof (IH (Nat.max x y) (Nat.max x y) (or_introl eq_refl)). lia.
  - destruct I as [->|I]; [pose proof (IH (Nat.max a x) (Nat.max a x) (or_introl eq_refl)); lia|apply IH; right; exact I].
Qed.
Lemma pow_div a b : In a [16; 32; 64; 128]%nat -> In b [16; 32; 64; 128]%nat -> (a <= b)%nat -> exists q, (b = q * a)%nat.
Proof.
  intros A B L. cbn in A, B.
  destruct A as [<-|[<-|[<-|[<-|[]]]]], B as [<-|[<-|[<-|[<-|[]]]]]; try (exfalso; lia);
  first [exists 1%nat; reflexivity|exists 2%nat; reflexivity|exists 4%nat; reflexivity|exists 8%nat; reflexivity].
Qed.

Lemma forall2_in {A B} (R : A -> B -> Prop) l1 l2 x y : Forall2 R l1 l2 -> In (x, y) (combine l1 l2) -> R x y.
Proof. intros F. induction F as [|a b l1 l2 H F IH]; [intros []|]. intros [E|I]; [injection E as <- <-; exact H|auto]. Qed.
Lemma forall2_left {A B} (R : A -> B -> Prop) l1 l2 x : Forall2 R l1 l2 -> In x l1 -> exists y, In (x, y) (combine l1 l2).
Proof. intros F. induction F as [|a b l1 l2 H F IH]; [intros []|]. intros [->|I]; [exists b; left; reflexivity|destruct (IH I) as [y Y]; exists y; right; exact Y]. Qed.
Lemma remapped_at r mask y x m : pixel_at mask y x [m] ->
  nth 0 (nth (Z.to_nat x) (nth (Z.to_nat y) (remapped r mask) []) []) 0 = Z.of_nat (nth (Z.to_nat m) r 0%nat).
Proof.
  intros P. pose proof (map_px_at (fun p => [Z.of_nat (nth (Z.to_nat (nth 0 p 0)) r 0%nat)]) mask y x [m] P) as (row & R & Q).
  unfold remapped. rewrite (nth_error_nth _ _ _ R), (nth_error_nth _ _ _ Q). reflexivity.
Qed.

Lemma animated_plain c m : ~ 227 <= m <= 238 -> ~ 241 <= m <= 254 -> animated c m = palette_entry m.
Proof.
  intros A B. unfold animated.
  replace ((227 <=? m) && (m <=? 231)) with false by lia.
  replace ((232 <=? m) && (m <=? 238)) with false by lia.
  replace ((241 <=? m) && (m <=? 244)) with false by lia.
  replace ((245 <=? m) && (m <=? 249)) with false by lia.
  replace ((250 <=? m) && (m <=? 254)) with false by lia.
  reflexivity.
Qed.

Theorem gif_shows so d mask fs y x m : a_set_order so -> save_gif so d = Some fs -> l_mask d = Some mask ->
  pixel_at mask y x [m] -> 0 <= m < 256 ->
  (0 < length fs)%nat /\
  forall n, seen fs (Nat.modulo n (length fs)) (Z.to_nat y) (Z.to_nat x) =
    if m =? 0 then None else Some (if (227 <=? m) && (m <=? 231) then palette_entry m else animated (8 * Z.of_nat n) m).
Proof.
  intros SO E LM P M. unfold save_gif in E.
  destruct (match l_rgb d with None => match l_alpha d with None => true | _ => false end | _ => false end); [|discriminate E].
  rewrite LM in E. cbn [bind] in E. destruct (existsb (fun b => b) (py_slice 7 9 (has_colors mask))) eqn:RD; [discriminate E|]. cbn [negb] in E.
  assert (LPAL : length PALETTE = 256%nat) by reflexivity.
  rewrite collect_table in E.
  destruct (collect_ok so (has_colors mask) TABLE SO table_ok PALETTE 232 LPAL table_ascending) as (pal & cs & EC & LP & OUT & G).
  rewrite EC in E. cbn [bind] in E. clear EC.
  set (sel := filter (chosen (has_colors mask)) TABLE) in *.
  assert (AS : ascending 232 sel) by (apply ascending_filter; exact table_ascending).
  assert (SEL : forall e, In e sel -> In e TABLE) by (intros e I; apply filter_In in I; tauto).
  assert (BND : forall e, In e sel -> (e_start e + e_size e <= 256)%nat) by (intros e I; pose proof (table_ranges e (SEL e I)); lia).
  assert (NE : cs <> []) by (destruct cs; [discriminate E|discriminate]).
  assert (E' : map_opt (make_frame pal cs mask) (seq 0 (fold_left Nat.max (map (fun c => length (c_res c)) cs) 0%nat)) = Some fs) by (destruct cs; [congruence|exact E]).
  clear E. set (count := fold_left Nat.max (map (fun c => length (c_res c)) cs) 0%nat) in *.
  assert (LEN : forall e c, In (e, c) (combine sel cs) -> In (length (c_res c)) [16; 32; 64; 128]%nat /\ (length (c_res c) <= count)%nat).
  { intros e c I. pose proof (forall2_in _ _ _ _ _ G I) as (_ & _ & L & _). split.
    - rewrite L. pose proof (SEL e (in_combine_l _ _ _ _ I)) as IT. cbn in IT. repeat (destruct IT as [<-|IT]; [cbn; tauto|]). destruct IT.
    - apply max_above. right. apply in_map_iff. exists c. split; [reflexivity|exact (in_combine_r _ _ _ _ I)]. }
  assert (CNT : In count [16; 32; 64; 128]%nat).
  { assert (LENC : forall c, In c cs -> In (length (c_res c)) [16; 32; 64; 128]%nat).
    { intros c I. assert (exists e, In (e, c) (combine sel cs)) as [e IE].
      { clear - G I. revert I. induction G as [|a b l1 l2 H F IH]; [intros []|]. intros [->|I]; [exists a; left; reflexivity|destruct (IH I) as [e Q]; exists e; right; exact Q]. }
      exact (proj1 (LEN e c IE)). }
    destruct (max_in (map (fun c => length (c_res c)) cs) 0%nat) as [Z0|I].
    - exfalso. destruct cs as [|c cs']; [congruence|]. pose proof (LENC c (or_introl eq_refl)) as Q.
      pose proof (max_above (map (fun c => length (c_res c)) (c :: cs')) 0%nat (length (c_res c)) (or_intror (or_introl eq_refl))) as U.
      unfold count in *. cbn in Q. lia.
    - apply in_map_iff in I as (c & EQ & IC). unfold count. rewrite <- EQ. exact (LENC c IC). }
  destruct (map_opt_inv _ _ _ E') as [LF NTH]. rewrite seq_length in LF.
  assert (C0 : (0 < count)%nat) by (cbn in CNT; lia). split; [lia|].
  assert (FR : forall i, (i < count)%nat -> exists f, make_frame pal cs mask i = Some f /\ nth_error fs i = Some f).
  { intros i I. apply (NTH i i). rewrite (nth_error_nth' _ 0%nat) by (rewrite seq_length; exact I). rewrite seq_nth by exact I. reflexivity. }
  (* the first frame *)
  destruct (first_remap_ok pal sel cs G 232 (seq 0 256) AS BND (seq_length _ _)) as (r0 & ER0 & LR0 & O0 & I0).
  destruct (FR 0%nat C0) as (f0 & F0 & N0). cbn [make_frame] in F0. rewrite ER0 in F0. cbn [bind] in F0. apply some_inj in F0.
  assert (OC : occurs mask m).
  { destruct P as (rw & R & Q). exists rw, [m]. split; [exact (nth_error_In _ _ R)|]. split; [exact (nth_error_In _ _ Q)|reflexivity]. }
  set (mn := Z.to_nat m). assert (MZ : Z.of_nat mn = m) by (unfold mn; lia).
  assert (MN : (mn < 256)%nat) by lia.
  assert (SELM : (exists e, In e sel /\ inside e mn) \/ (forall e, In e sel -> ~ inside e mn)).
  { clear. induction sel as [|e l IH]; [right; intros e []|]. destruct IH as [(e0 & I & Q)|N]; [left; exists e0; split; [right; exact I|exact Q]|].
    unfold inside. destruct (Nat.le_gt_cases (e_start e) mn); [destruct (Nat.lt_ge_cases mn (e_start e + e_size e))|].
    - left. exists e. split; [left; reflexivity|lia].
    - right. intros e0 [<-|I]; [lia|exact (N e0 I)].
    - right. intros e0 [<-|I]; [lia|exact (N e0 I)]. }
  destruct SELM as [(e & IE & IN)|OUTM].
  - (* an animated colour *)
    destruct (forall2_left _ _ _ _ G IE) as (c & IC). pose proof (forall2_in _ _ _ _ _ G IC) as GC.
    destruct (table_ranges e (SEL e IE)) as [T1 T2]. unfold inside in IN. set (k := (mn - e_start e)%nat).
    assert (K : (k < e_size e)%nat) by (unfold k; lia). assert (MK : mn = (e_start e + k)%nat) by (unfold k; lia).
    assert (M0 : m =? 0 = false) by (apply Z.eqb_neq; lia). rewrite M0. intros n. rewrite LF.
    replace ((227 <=? m) && (m <=? 231)) with false by (symmetry; apply andb_false_iff; right; apply Z.leb_gt; lia).
    set (i := Nat.modulo n count). assert (IL : (i < count)%nat) by (apply Nat.mod_upper_bound; lia).
    (* the row of frame i is the row of n *)
    assert (RI : row c i = row c n).
    { destruct (LEN e c IC) as [L1 L2]. destruct (pow_div _ _ L1 CNT L2) as [q Q]. unfold row. f_equal. unfold i. rewrite Q.
      set (L := length (c_res c)) in *. assert (L <> 0)%nat by (cbn in L1; lia). assert (Q0 : (q <> 0)%nat) by (intros ->; cbn in Q; lia).
      rewrite (Nat.mul_comm q L), Nat.mod_mul_r by assumption. rewrite Nat.mul_comm, Nat.mod_add by assumption. apply Nat.mod_mod. assumption. }
    destruct GC as (_ & _ & _ & GX). destruct (GX n) as [LR X]. destruct (X k K) as [B EX]. rewrite <- RI in B, EX. rewrite <- MK, MZ in EX.
    destruct (FR i IL) as (f & F & N).
    assert (FP : frame_pixel f (Z.to_nat y) (Z.to_nat x) = Some (animated (8 * Z.of_nat n) m)).
    { destruct i as [|i'].
      - assert (f = f0) by congruence. subst f. rewrite <- F0. unfold frame_pixel. cbn [f_px f_pal]. rewrite (remapped_at r0 mask y x m P). fold mn.
        rewrite MK, (I0 e c IC k K). set (v := nth k (row c 0) 0%nat) in *. destruct (Z.eqb_spec (Z.of_nat v) 0) as [Q|Q]; [lia|]. rewrite Nat2Z.id.
        rewrite <- EX. apply nth_error_nth'. lia.
      - cbn [make_frame] in F.
        destruct (later_remap_ok pal (S i') sel cs G 232 1 (repeat 0%nat 256) [(0, 0, 0)] AS ltac:(lia) BND (repeat_length _ _) eq_refl) as (r & p & ER & LR1 & _ & _ & I1).
        rewrite ER in F. apply some_inj in F. subst f. unfold frame_pixel. cbn [f_px f_pal]. rewrite (remapped_at r mask y x m P). fold mn.
        destruct (I1 e c IC k K) as [V0 V1]. rewrite MK. destruct (Z.eqb_spec (Z.of_nat (nth (e_start e + k) r 0%nat)) 0) as [Q|Q]; [lia|]. rewrite Nat2Z.id, V1, EX. reflexivity. }
    destruct i as [|i']; cbn [seen]; rewrite N, FP; reflexivity.
  - (* a colour at rest *)
    assert (Q : ~ (232 <= m <= 254)).
    { intros R. destruct (Z.eq_dec m 239) as [->|Q1]; [rewrite (proj2 (radio mask) (or_introl OC)) in RD; discriminate RD|].
      destruct (Z.eq_dec m 240) as [->|Q2]; [rewrite (proj2 (radio mask) (or_intror OC)) in RD; discriminate RD|].
      destruct (table_covers mn ltac:(lia) ltac:(lia) ltac:(lia) ltac:(lia)) as (e & IT & IN).
      destruct (table_ranges e IT) as [T1 T2]. apply (OUTM e); [|exact IN]. apply filter_In. split; [exact IT|].
      apply chosen_iff; [exact T1|exact T2|]. exists mn. split; [exact IN|]. rewrite MZ. exact OC. }
    intros n. replace (if (227 <=? m) && (m <=? 231) then palette_entry m else animated (8 * Z.of_nat n) m) with (palette_entry m).
    2:{ destruct ((227 <=? m) && (m <=? 231)) eqn:FZ; [reflexivity|]. symmetry. apply animated_plain; lia. }
    rewrite LF.
    set (i := Nat.modulo n count). assert (IL : (i < count)%nat) by (apply Nat.mod_upper_bound; lia). clearbody i. clear n.
    induction i as [|i IH].
    + cbn [seen]. rewrite N0, <- F0. unfold frame_pixel. cbn [f_px f_pal]. rewrite (remapped_at r0 mask y x m P). fold mn.
      rewrite (O0 mn OUTM), seq_nth by exact MN. cbn [Nat.add]. rewrite MZ. destruct (Z.eqb_spec m 0) as [Q3|Q3]; [reflexivity|].
      fold mn. assert (LQ : (mn < length pal)%nat) by (rewrite LP; exact MN). rewrite (nth_error_nth' pal (0, 0, 0) LQ). rewrite OUT; [reflexivity|].
      intros e IT CH IN. apply (OUTM e); [apply filter_In; split; assumption|exact IN].
    + cbn [seen]. destruct (FR (S i) IL) as (f & F & N). rewrite N. cbn [make_frame] in F.
      destruct (later_remap_ok pal (S i) sel cs G 232 1 (repeat 0%nat 256) [(0, 0, 0)] AS ltac:(lia) BND (repeat_length _ _) eq_refl) as (r & p & ER & LR1 & _ & O1 & _).
      rewrite ER in F. apply some_inj in F. subst f. unfold frame_pixel at 1. cbn [f_px f_pal]. rewrite (remapped_at r mask y x m P). fold mn.
      rewrite (O1 mn OUTM). rewrite (nth_repeat 0%nat). cbn [Z.of_nat Z.eqb]. apply IH. lia.
Qed.

(** ** When there is an animation *)
Theorem gif_iff so d mask : a_set_order so -> l_rgb d = None -> l_alpha d = None -> l_mask d = Some mask ->
  (exists fs, save_gif so d = Some fs) <->
  ~ occurs mask 239 /\ ~ occurs mask 240 /\ exists m, 232 <= m <= 254 /\ occurs mask m.
Proof.
  intros SO R A LM. unfold save_gif. rewrite R, A, LM. cbn [bind].
  destruct (existsb (fun b => b) (py_slice 7 9 (has_colors mask))) eqn:RD; cbn [negb].
  { apply radio in RD. split; [intros (fs & E); discriminate E|]. intros (N1 & N2 & _). destruct RD; contradiction. }
  assert (N1 : ~ occurs mask 239) by (intros H; rewrite (proj2 (radio mask) (or_introl H)) in RD; discriminate RD).
  assert (N2 : ~ occurs mask 240) by (intros H; rewrite (proj2 (radio mask) (or_intror H)) in RD; discriminate RD).
  rewrite collect_table.
  destruct (collect_ok so (has_colors mask) TABLE SO table_ok PALETTE 232 eq_refl table_ascending) as (pal & cs & EC & LP & OUT & G).
  rewrite EC. cbn [bind]. set (sel := filter (chosen (has_colors mask)) TABLE) in *.
  assert (SEL : forall e, In e sel -> In e TABLE /\ chosen (has_colors mask) e = true) by (intros e I; apply filter_In in I; exact I).
  assert (AS : ascending 232 sel) by (apply ascending_filter; exact table_ascending).
  assert (BND : forall e, In e sel -> (e_start e + e_size e <= 256)%nat) by (intros e I; pose proof (table_ranges e (proj1 (SEL e I))); lia).
  destruct cs as [|c cs]; cbn [negb].
  - split; [intros (fs & E); discriminate E|]. intros (_ & _ & m & M & O). exfalso.
    assert (MZ : Z.of_nat (Z.to_nat m) = m) by lia.
    destruct (table_covers (Z.to_nat m)) as (e & IT & IN); try lia; try (intros E; rewrite MZ in E; subst m; contradiction).
    destruct (table_ranges e IT) as [T1 T2].
    assert (IS : In e sel). { apply filter_In. split; [exact IT|]. apply chosen_iff; [exact T1|exact T2|]. exists (Z.to_nat m). rewrite MZ. split; assumption. }
    inversion G as [H|]. rewrite <- H in IS. destruct IS.
  - split; intros _.
    + split; [exact N1|]. split; [exact N2|]. inversion G as [|e ? t ? GC GR H]; subst.
      destruct (SEL e ltac:(rewrite <- H; left; reflexivity)) as [IT CH]. destruct (table_ranges e IT) as [T1 T2].
      apply chosen_iff in CH as (m & IN & O); [|exact T1|exact T2]. exists (Z.of_nat m). unfold inside in IN. split; [lia|exact O].
    + destruct (map_opt_nth (make_frame pal (c :: cs) mask) (seq 0 (fold_left Nat.max (map (fun c => length (c_res c)) (c :: cs)) 0%nat))) as (fs & E & _); [|exists fs; exact E].
      intros [|i] _; cbn [make_frame].
      * destruct (first_remap_ok pal sel (c :: cs) G 232 (seq 0 256) AS BND (seq_length _ _)) as (r0 & -> & _). eexists. reflexivity.
      * destruct (later_remap pal (S i) (c :: cs) 1 (repeat 0%nat 256) [(0, 0, 0)]). eexists. reflexivity.
Qed.
