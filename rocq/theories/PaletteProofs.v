(** Palettes: recolouring, conversion, quantising. *)
From Coq Require Import ZArith List Bool Lia.
From Verif Require Import Base BaseFacts SpriteModel SpecDecode SpecSprite SpriteProofs CacheModel JsonModel PaletteData TreeModel TreeProofs SpecTree SpecLayers LayerProofs.
Import ListNotations.
Open Scope Z_scope.

Lemma same_colour_eq a b : same_colour a b = true <-> a = b.
Proof.
  destruct a as [[r g] b1], b as [[r2 g2] b2]. cbn. split.
  - intros H. apply andb_prop in H as [H H3]. apply andb_prop in H as [H1 H2]. f_equal; [f_equal|]; lia.
  - intros H. injection H as -> -> ->. now rewrite !Z.eqb_refl.
Qed.

Lemma fold_lookup c : forall (l : list (Z * (Z * Z * Z))) (acc r : option Z), fold_left (fun r e => if same_colour (snd e) c then Some (fst e) else r) l acc = r ->
  (exists i, r = Some i /\ In (i, c) l) \/ (r = acc /\ forall i, ~ In (i, c) l).
Proof.
  induction l as [|[i d] l IH]; intros acc r E; cbn [fold_left] in E; [right; split; [now symmetry|intros i []]|].
  cbn [fst snd] in E. destruct (same_colour d c) eqn:S.
  - apply same_colour_eq in S. subst d. destruct (IH _ _ E) as [(j & A & B) | (A & B)].
    + left. exists j. split; [exact A|now right].
    + left. exists i. split; [exact A|now left].
  - destruct (IH _ _ E) as [(j & A & B) | (A & B)]; [left; exists j; split; [exact A|now right]|right].
    split; [exact A|]. intros j [J | J]; [injection J as <- <-; rewrite (proj2 (same_colour_eq d d) eq_refl) in S; discriminate|now apply (B j)].
Qed.
Lemma combine_seq_In {A} (l : list A) n i (c : A) : length l = n -> In (i, c) (combine (map Z.of_nat (seq 0 n)) l) <-> 0 <= i /\ nth_error l (Z.to_nat i) = Some c.
Proof.
  intros <-. assert (Q : forall (l : list A) s, In (i, c) (combine (map Z.of_nat (seq s (length l))) l) <-> Z.of_nat s <= i /\ nth_error l (Z.to_nat (i - Z.of_nat s)) = Some c).
  { clear. induction l as [|a l IH]; intros s; cbn [length seq map combine]; [split; [intros []|intros [_ H]; destruct (Z.to_nat (i - Z.of_nat s)); discriminate]|].
    cbn [In]. rewrite IH. split.
    - intros [E | [A1 A2]]; [injection E as <- <-; rewrite Z.sub_diag; split; [lia|reflexivity]|]. split; [lia|].
      replace (Z.to_nat (i - Z.of_nat s)) with (S (Z.to_nat (i - Z.of_nat (S s)))) by lia. exact A2.
    - intros [A1 A2]. destruct (Z.eq_dec i (Z.of_nat s)) as [-> | N]; [left; rewrite Z.sub_diag in A2; cbn in A2; congruence|right].
      split; [lia|]. replace (Z.to_nat (i - Z.of_nat s)) with (S (Z.to_nat (i - Z.of_nat (S s)))) in A2 by lia. exact A2. }
  specialize (Q l 0%nat). rewrite Q. rewrite Z.sub_0_r. reflexivity.
Qed.
Lemma palette_length : length PALETTE = 256%nat. Proof. reflexivity. Qed.
Lemma lookup_some c i : lookup_colour c = Some i -> 0 <= i < 256 /\ nth_error PALETTE (Z.to_nat i) = Some c.
Proof.
  intros E. unfold lookup_colour in E. destruct (fold_lookup c _ _ _ E) as [(j & A & B) | (A & _)]; [|discriminate].
  apply some_inj in A. subst j. apply combine_seq_In in B as [B1 B2]; [|exact palette_length]. split; [|exact B2].
  assert (Z.to_nat i < 256)%nat by (rewrite <- palette_length; apply nth_error_Some; congruence). lia.
Qed.
Lemma lookup_none c : lookup_colour c = None -> ~ In c PALETTE.
Proof.
  intros E I. unfold lookup_colour in E. destruct (fold_lookup c _ _ _ E) as [(j & A & B) | (_ & B)]; [discriminate|].
  destruct (In_nth_error _ _ I) as [n N]. apply (B (Z.of_nat n)). apply combine_seq_In; [exact palette_length|]. split; [lia|]. now rewrite Nat2Z.id.
Qed.

Lemma set_nth_length {A} n (v : A) l : length (set_nth n v l) = length l.
Proof. revert n. induction l as [|a l IH]; intros [|n]; cbn; auto. Qed.
Lemma set_nth_nth {A} n (v : A) l i d : (n < length l)%nat -> nth i (set_nth n v l) d = if (i =? n)%nat then v else nth i l d.
Proof.
  revert n i. induction l as [|a l IH]; intros [|n] [|i] H; cbn in *; try lia; try reflexivity.
  apply IH. lia.
Qed.

(** What the filled table says. *)
Definition resolved (lib : pil) (c : Z * Z * Z) : Z := match lookup_colour c with Some r => r | None => pil_best lib c end.
Lemma fill_remap_spec lib : forall cs i t t', 0 <= i -> fill_remap lib i cs t = Some t' ->
  length t' = length t /\ (cs <> [] -> i + len cs <= len t) /\
  (forall n c, nth_error cs n = Some c -> nth (Z.to_nat i + n) t' 0 = resolved lib c /\ 0 <= resolved lib c < 256) /\
  (forall k, (k < Z.to_nat i \/ Z.to_nat i + length cs <= k)%nat -> nth k t' 0 = nth k t 0).
Proof.
  induction cs as [|c cs IH]; intros i t t' I E; cbn [fill_remap] in E.
  - apply some_inj in E. subst t'. repeat split; auto; intros; try congruence; destruct n; discriminate.
  - fold (resolved lib c) in E. unfold remap_set in E. destruct ((0 <=? i) && (i <? len t) && byteb (resolved lib c)) eqn:C; [cbn [bind] in E|discriminate].
    apply andb_prop in C as [C Cb]. unfold byteb in Cb. unfold len in C. destruct (IH (i + 1) _ _ ltac:(lia) E) as (L & B & N & K). rewrite set_nth_length in L.
    unfold len in *. rewrite set_nth_length in B. split; [exact L|]. split; [intros _|split].
    + cbn [length]. destruct cs as [|c2 cs]; [cbn [length]; lia|]. specialize (B ltac:(discriminate)). lia.
    + intros [|n] c' Hn; cbn in Hn.
      * apply some_inj in Hn. subst c'. rewrite Nat.add_0_r. rewrite K by (left; lia). rewrite set_nth_nth by lia. rewrite Nat.eqb_refl. split; [reflexivity|lia].
      * destruct (N n c' Hn) as [N1 N2]. replace (Z.to_nat i + S n)%nat with (Z.to_nat (i + 1) + n)%nat by lia. auto.
    + intros k Hk. cbn [length] in Hk. rewrite K by lia. rewrite set_nth_nth by lia. destruct (Nat.eqb_spec k (Z.to_nat i)); [lia|reflexivity].
Qed.

Lemma remap_px_at t l l' y x i : remap_px t l = Some l' -> pixel_at l y x [i] -> 0 <= i < len t /\ pixel_at l' y x [nth (Z.to_nat i) t 0].
Proof.
  unfold remap_px. match goal with |- context [if ?c then _ else _] => destruct c eqn:C; [|discriminate] end. intros E P. apply some_inj in E. subst l'.
  split; [|exact (map_px_at _ l y x [i] P)]. destruct P as (row & R & P). pose proof (proj1 (forallb_forall _ _) C row (nth_error_In _ _ R)) as D.
  pose proof (proj1 (forallb_forall _ _) D [i] (nth_error_In _ _ P)) as F. cbn beta iota in F. lia.
Qed.
Lemma map_px_layer h w l (f : list Z -> list Z) k k' : is_layer h w k l ->
  (forall p, length p = k -> Forall (fun c => 0 <= c < 256) p -> length (f p) = k' /\ Forall (fun c => 0 <= c < 256) (f p)) -> is_layer h w k' (map_px f l).
Proof.
  intros [L F] H. unfold map_px. split; [now rewrite map_length|]. apply Forall_forall. intros r R. apply in_map_iff in R as (r0 & <- & R). rewrite Forall_forall in F.
  destruct (F r0 R) as [W P]. split; [now rewrite map_length|]. apply Forall_forall. intros p Hp. apply in_map_iff in Hp as (q & <- & Q). rewrite Forall_forall in P. apply H; apply (P q Q).
Qed.

(** Ranges. *)
Fixpoint last_range (rs : list (Z * Z * Z)) (i : Z) (d : Z) : Z :=
  match rs with
  | [] => d
  | (f, l, v) :: rs => last_range rs i (if (f <=? i) && (i <=? l) then v else d)
  end.
Lemma combine_seq_nth (t : list Z) i : (i < length t)%nat -> nth_error (combine (map Z.of_nat (seq 0 (length t))) t) i = Some (Z.of_nat i, nth i t 0).
Proof.
  intros H. apply combine_nth.
  - rewrite nth_error_map. rewrite (nth_error_nth' (seq 0 (length t)) 0%nat) by (rewrite seq_length; exact H). rewrite seq_nth by exact H. reflexivity.
  - now apply nth_error_nth'.
Qed.
Lemma set_range_spec f l v t t' : set_range (f, l, v) t = Some t' -> length t' = length t /\
  forall i, 0 <= i < len t -> nth (Z.to_nat i) t' 0 = if (f <=? i) && (i <=? l) then v else nth (Z.to_nat i) t 0.
Proof.
  unfold set_range. destruct ((0 <=? f) && (-1 <=? l) && byteb v); [|discriminate]. intros E. apply some_inj in E. subst t'. unfold len. split.
  - rewrite map_length, combine_length, map_length, seq_length. lia.
  - intros i I. apply nth_error_nth. rewrite nth_error_map, combine_seq_nth by lia. cbn [option_map fst snd]. now rewrite Z2Nat.id by lia.
Qed.
Lemma set_ranges_spec : forall rs t t', set_ranges rs t = Some t' -> length t' = length t /\
  forall i, 0 <= i < len t -> nth (Z.to_nat i) t' 0 = last_range rs i (nth (Z.to_nat i) t 0).
Proof.
  induction rs as [|[[f l] v] rs IH]; intros t t' E; cbn [set_ranges] in E; [apply some_inj in E; subst; auto|].
  destruct (set_range (f, l, v) t) as [t1|] eqn:E1; [cbn [bind] in E|discriminate]. apply set_range_spec in E1 as [L1 N1].
  destruct (IH _ _ E) as [L2 N2]. split; [congruence|]. intros i I. rewrite N2 by (unfold len in *; rewrite L1; exact I). cbn [last_range]. now rewrite N1.
Qed.
