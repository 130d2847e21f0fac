(** Proofs for SpriteModel: cropping. *)
From Coq Require Import ZArith List Bool Lia.
From Verif Require Import Base BaseFacts DecodeModel SpecDecode DecodeProofs ChunkProofs SpriteModel SpecSprite.
Import ListNotations.
Open Scope Z_scope.

Definition pic (d : layers) : picture := mk_picture (l_rgb d) (l_alpha d) (l_mask d).

Lemma nonzero_marked : forall p, nonzero p = true <-> marked p.
Proof.
  intros p. unfold nonzero, marked. rewrite existsb_exists. split; intros (c & I & H); exists c; split; try exact I.
  - apply negb_true_iff, Z.eqb_neq in H. exact H.
  - apply negb_true_iff, Z.eqb_neq. exact H.
Qed.

Lemma fold_min : forall l x, fold_left Z.min l x <= x /\ (forall y, In y l -> fold_left Z.min l x <= y)
  /\ (fold_left Z.min l x = x \/ In (fold_left Z.min l x) l).
Proof.
  induction l as [|a l IH]; intros x; cbn [fold_left].
  - split; [lia|]. split; [intros y []|left; reflexivity].
  - destruct (IH (Z.min x a)) as (A & B & C). split; [lia|]. split.
    + intros y [<-|H]; [lia|exact (B y H)].
    + destruct C as [C|C]; [|right; right; exact C].
      rewrite C. destruct (Z.min_spec x a) as [[_ ->]|[_ ->]]; [left; reflexivity|right; left; reflexivity].
Qed.
Lemma fold_max : forall l x, x <= fold_left Z.max l x /\ (forall y, In y l -> y <= fold_left Z.max l x)
  /\ (fold_left Z.max l x = x \/ In (fold_left Z.max l x) l).
Proof.
  induction l as [|a l IH]; intros x; cbn [fold_left].
  - split; [lia|]. split; [intros y []|left; reflexivity].
  - destruct (IH (Z.max x a)) as (A & B & C). split; [lia|]. split.
    + intros y [<-|H]; [lia|exact (B y H)].
    + destruct C as [C|C]; [|right; right; exact C].
      rewrite C. destruct (Z.max_spec x a) as [[_ ->]|[_ ->]]; [right; left; reflexivity|left; reflexivity].
Qed.
Lemma min_default_le : forall l x, In x l -> min_default l <= x.
Proof. intros [|a l] x []; cbn [min_default]; destruct (fold_min l a) as (A & B & _); [lia|apply B; assumption]. Qed.
Lemma max_default_ge : forall l x, In x l -> x <= max_default l.
Proof. intros [|a l] x []; cbn [max_default]; destruct (fold_max l a) as (A & B & _); [lia|apply B; assumption]. Qed.
Lemma min_default_in : forall l, l <> [] -> In (min_default l) l.
Proof.
  intros [|a l] N; [contradiction|]. cbn [min_default].
  destruct (fold_min l a) as (_ & _ & [E|E]); [rewrite E; left; reflexivity|right; exact E].
Qed.
Lemma max_default_in : forall l, l <> [] -> In (max_default l) l.
Proof.
  intros [|a l] N; [contradiction|]. cbn [max_default].
  destruct (fold_max l a) as (_ & _ & [E|E]); [rewrite E; left; reflexivity|right; exact E].
Qed.

Lemma in_zseq : forall n x, In x (map Z.of_nat (seq 0 (Z.to_nat n))) <-> 0 <= x < n.
Proof.
  intros n x. rewrite in_map_iff. split.
  - intros (k & <- & H). apply in_seq in H. lia.
  - intros H. exists (Z.to_nat x). split; [lia|apply in_seq; lia].
Qed.

Lemma pixel_at_fun : forall l y x p q, pixel_at l y x p -> pixel_at l y x q -> p = q.
Proof. intros l y x p q (r & A & B) (r' & A' & B'). rewrite A in A'. injection A' as <-. congruence. Qed.

Lemma layer_pixel_exists : forall h w k l y x, is_layer h w k l -> 0 <= y < h -> 0 <= x < w ->
  exists p, pixel_at l y x p /\ length p = k /\ Forall (fun c => 0 <= c < 256) p.
Proof.
  intros h w k l y x [L F] Hy Hx.
  destruct (nth_error l (Z.to_nat y)) as [row|] eqn:E; [|apply nth_error_None in E; lia].
  rewrite Forall_forall in F. destruct (F row (nth_error_In _ _ E)) as [Lr Fr].
  destruct (nth_error row (Z.to_nat x)) as [p|] eqn:Ep; [|apply nth_error_None in Ep; lia].
  rewrite Forall_forall in Fr. destruct (Fr p (nth_error_In _ _ Ep)) as [A B].
  exists p. split; [exists row; split; assumption|]. split; assumption.
Qed.
Lemma layer_pixel_range : forall h w k l y x p, is_layer h w k l -> 0 <= y -> 0 <= x -> pixel_at l y x p ->
  y < h /\ x < w.
Proof.
  intros h w k l y x p [L F] Hy Hx (row & A & B).
  assert (Ly : (Z.to_nat y < length l)%nat) by (apply nth_error_Some; congruence).
  assert (Lx : (Z.to_nat x < length row)%nat) by (apply nth_error_Some; congruence).
  rewrite Forall_forall in F. destruct (F row (nth_error_In _ _ A)) as [Lr _]. lia.
Qed.

Lemma cols_used_in : forall h w k l x, is_layer h w k l ->
  (In x (cols_used w l) <-> 0 <= x < w /\ exists y p, 0 <= y < h /\ pixel_at l y x p /\ marked p).
Proof.
  intros h w k l x L. unfold cols_used. rewrite filter_In, in_zseq, existsb_exists. split.
  - intros [Hx (row & I & N)]. split; [exact Hx|].
    apply In_nth_error in I as (n & E).
    assert (Hn : (n < length l)%nat) by (apply nth_error_Some; congruence).
    destruct L as [L F]. destruct (Forall_forall (fun row => Z.of_nat (length row) = w
       /\ Forall (fun p => length p = k /\ Forall (fun c => 0 <= c < 256) p) row) l) as [F' _].
    destruct (F' F row (nth_error_In _ _ E)) as [Lr _].
    exists (Z.of_nat n), (nth (Z.to_nat x) row []). split; [lia|]. split.
    + exists row. rewrite Nat2Z.id. split; [exact E|]. apply nth_error_nth'. lia.
    + apply nonzero_marked, N.
  - intros [Hx (y & p & Hy & (row & A & B) & M)]. split; [exact Hx|].
    exists row. split; [exact (nth_error_In _ _ A)|]. rewrite (nth_error_nth _ _ _ B). apply nonzero_marked, M.
Qed.
Lemma rows_used_in : forall h w k l y, is_layer h w k l ->
  (In y (rows_used h l) <-> 0 <= y < h /\ exists x p, 0 <= x < w /\ pixel_at l y x p /\ marked p).
Proof.
  intros h w k l y L. unfold rows_used. rewrite filter_In, in_zseq, existsb_exists. split.
  - intros [Hy (p & I & N)]. split; [exact Hy|].
    destruct L as [L F].
    destruct (nth_error l (Z.to_nat y)) as [row|] eqn:E; [|apply nth_error_None in E; lia].
    rewrite (nth_error_nth _ _ _ E) in I. apply In_nth_error in I as (n & En).
    assert (Hn : (n < length row)%nat) by (apply nth_error_Some; congruence).
    destruct (Forall_forall (fun row => Z.of_nat (length row) = w
       /\ Forall (fun p => length p = k /\ Forall (fun c => 0 <= c < 256) p) row) l) as [F' _].
    destruct (F' F row (nth_error_In _ _ E)) as [Lr _].
    exists (Z.of_nat n), p. split; [lia|]. split; [|apply nonzero_marked, N].
    exists row. rewrite Nat2Z.id. split; assumption.
  - intros [Hy (x & p & Hx & (row & A & B) & M)]. split; [exact Hy|].
    exists p. split; [|apply nonzero_marked, M]. rewrite (nth_error_nth _ _ _ A). exact (nth_error_In _ _ B).
Qed.

Lemma cut_pixel : forall l cx cy w h y x p, 0 <= cx -> 0 <= cy -> 0 <= y < h -> 0 <= x < w ->
  (pixel_at (cut cx cy w h l) y x p <-> pixel_at l (y + cy) (x + cx) p).
Proof.
  intros l cx cy w h y x p Hcx Hcy Hy Hx. unfold pixel_at, cut.
  rewrite Z2Nat.inj_add by lia. rewrite Z2Nat.inj_add by lia.
  rewrite (Nat.add_comm (Z.to_nat y)), (Nat.add_comm (Z.to_nat x)).
  split.
  - intros (row & A & B). rewrite nth_error_map in A. rewrite nth_error_firstn', nth_error_skipn' in A by lia.
    destruct (nth_error l (Z.to_nat cy + Z.to_nat y)) as [r|]; [|discriminate]. cbn in A. injection A as <-.
    exists r. split; [reflexivity|]. rewrite nth_error_firstn', nth_error_skipn' in B by lia. exact B.
  - intros (row & A & B). exists (firstn (Z.to_nat w) (skipn (Z.to_nat cx) row)). split.
    + rewrite nth_error_map. rewrite nth_error_firstn', nth_error_skipn' by lia. rewrite A. reflexivity.
    + rewrite nth_error_firstn', nth_error_skipn' by lia. exact B.
Qed.

Lemma Forall_firstn : forall {A} (P : A -> Prop) n l, Forall P l -> Forall P (firstn n l).
Proof. intros A P; induction n; intros l F; [constructor|]. destruct F; constructor; auto. Qed.
Lemma Forall_skipn : forall {A} (P : A -> Prop) n l, Forall P l -> Forall P (skipn n l).
Proof. intros A P; induction n; intros l F; [exact F|]. destruct F; [constructor|]. cbn. auto. Qed.

Lemma cut_layer : forall h w k l cx cy w' h', is_layer h w k l -> 0 <= cx -> 0 <= cy -> 0 <= w' -> 0 <= h' ->
  cx + w' <= w -> cy + h' <= h -> is_layer h' w' k (cut cx cy w' h' l).
Proof.
  intros h w k l cx cy w' h' [L F] A B C D E G. unfold cut. split.
  - rewrite map_length, firstn_length, skipn_length. lia.
  - apply Forall_map, Forall_firstn, Forall_skipn. revert F. apply Forall_impl. intros row [Lr Fr]. split.
    + rewrite firstn_length, skipn_length. lia.
    + apply Forall_firstn, Forall_skipn, Fr.
Qed.

(** The layer that decides what is cropped. *)
Definition key_layer (d : layers) : option layer :=
  match l_alpha d, l_rgb d, l_mask d with
  | Some a, _, _ => Some a
  | None, Some r, _ => Some r
  | None, None, Some m => Some m
  | None, None, None => None
  end.

Lemma key_is_layer : forall d key, is_picture (l_h d) (l_w d) (pic d) -> key_layer d = Some key ->
  exists k, is_layer (l_h d) (l_w d) k key.
Proof.
  intros d key (P1 & P2 & P3) E. unfold key_layer in E. cbn [pic p_rgb p_alpha p_mask] in *.
  destruct (l_alpha d) as [a|]; [injection E as <-; exists 1%nat; auto|].
  destruct (l_rgb d) as [r|]; [injection E as <-; exists 3%nat; auto|].
  destruct (l_mask d) as [m|]; [injection E as <-; exists 1%nat; auto|discriminate].
Qed.

Lemma do_crop_eq : forall d key, key_layer d = Some key ->
  do_crop true d =
  let cols := cols_used (l_w d) key in
  let rows := rows_used (l_h d) key in
  let cx := min_default cols in let cy := min_default rows in
  let w := max_default cols - cx + 1 in let h := max_default rows - cy + 1 in
  let c := option_map (cut cx cy w h) in
  Some (cx, cy, mk_layers w h (c (l_rgb d)) (c (l_alpha d)) (c (l_mask d))).
Proof.
  intros d key E. unfold do_crop. cbn [negb].
  change (match l_alpha d with Some a => Some a | None =>
    match l_rgb d with Some r => Some r | None => match l_mask d with Some m => Some m | None => None end end end)
    with (key_layer d). rewrite E. reflexivity.
Qed.

(** The crop box lies in the image. *)
Lemma crop_box : forall d key, is_picture (l_h d) (l_w d) (pic d) -> key_layer d = Some key ->
  0 < l_w d -> 0 < l_h d ->
  let cols := cols_used (l_w d) key in let rows := rows_used (l_h d) key in
  0 <= min_default cols /\ min_default cols <= max_default cols < l_w d
  /\ 0 <= min_default rows /\ min_default rows <= max_default rows < l_h d.
Proof.
  intros d key P K Hw Hh. cbn zeta.
  assert (G : forall l n, 0 < n -> (forall x, In x l -> 0 <= x < n) -> 0 <= min_default l /\ min_default l <= max_default l < n).
  { intros l n Hn H. destruct l as [|a l]; [cbn; lia|].
    pose proof (min_default_in (a :: l) ltac:(discriminate)) as A.
    pose proof (max_default_in (a :: l) ltac:(discriminate)) as B.
    pose proof (H _ A). pose proof (H _ B). pose proof (min_default_le _ _ B). lia. }
  destruct (G (cols_used (l_w d) key) (l_w d) Hw) as [A B].
  { intros x Hx. unfold cols_used in Hx. apply filter_In in Hx as [Hx _]. apply in_zseq, Hx. }
  destruct (G (rows_used (l_h d) key) (l_h d) Hh) as [C D].
  { intros x Hx. unfold rows_used in Hx. apply filter_In in Hx as [Hx _]. apply in_zseq, Hx. }
  auto.
Qed.

Lemma crop_picture : forall crop d cx cy c, is_picture (l_h d) (l_w d) (pic d) ->
  0 < l_w d -> 0 < l_h d -> do_crop crop d = Some (cx, cy, c) ->
  is_picture (l_h c) (l_w c) (pic c) /\ 0 <= cx /\ 0 <= cy /\ 0 < l_w c /\ 0 < l_h c
  /\ cx + l_w c <= l_w d /\ cy + l_h c <= l_h d.
Proof.
  intros crop d cx cy c P Hw Hh E. destruct crop.
  - destruct (key_layer d) as [key|] eqn:K.
    + rewrite (do_crop_eq d key K) in E. cbn zeta in E. apply some_inj in E.
      apply pair_inj in E as [E Ec]. apply pair_inj in E as [Ex Ey].
      destruct (crop_box d key P K Hw Hh) as (A & B & C & D).
      set (cols := cols_used (l_w d) key) in *. set (rows := rows_used (l_h d) key) in *.
      subst c cx cy. cbn [l_w l_h].
      split; [|lia]. destruct P as (P1 & P2 & P3). cbn [pic p_rgb p_alpha p_mask l_rgb l_alpha l_mask] in *.
      assert (G : forall k o l, (forall l, o = Some l -> is_layer (l_h d) (l_w d) k l) ->
        option_map (cut (min_default cols) (min_default rows) (max_default cols - min_default cols + 1)
          (max_default rows - min_default rows + 1)) o = Some l ->
        is_layer (max_default rows - min_default rows + 1) (max_default cols - min_default cols + 1) k l).
      { intros k [l0|] l H Q; [|discriminate]. cbn in Q. injection Q as <-.
        apply (cut_layer _ _ _ _ _ _ _ _ (H _ eq_refl)); lia. }
      split; [|split]; cbn [p_rgb p_alpha p_mask]; intros l Q.
      * exact (G 3%nat _ l P1 Q).
      * exact (G 1%nat _ l P2 Q).
      * exact (G 1%nat _ l P3 Q).
    + exfalso. unfold do_crop in E. cbn [negb] in E. unfold key_layer in K.
      destruct (l_alpha d); [discriminate|]. destruct (l_rgb d); [discriminate|].
      destruct (l_mask d); discriminate.
  - unfold do_crop in E. cbn in E. injection E as <- <- <-. split; [exact P|]. lia.
Qed.

(** Pixels stay in place. *)
Lemma crop_layers : forall crop d cx cy c, do_crop crop d = Some (cx, cy, c) ->
  (crop = false /\ cx = 0 /\ cy = 0 /\ c = d) \/
  (l_rgb c = option_map (cut cx cy (l_w c) (l_h c)) (l_rgb d)
   /\ l_alpha c = option_map (cut cx cy (l_w c) (l_h c)) (l_alpha d)
   /\ l_mask c = option_map (cut cx cy (l_w c) (l_h c)) (l_mask d)).
Proof.
  intros [|] d cx cy c E.
  - right. destruct (key_layer d) as [key|] eqn:K.
    + rewrite (do_crop_eq d key K) in E. cbn zeta in E. injection E as <- <- <-.
      split; [reflexivity|]. split; reflexivity.
    + exfalso. unfold do_crop in E. cbn [negb] in E. unfold key_layer in K.
      destruct (l_alpha d); [discriminate|]. destruct (l_rgb d); [discriminate|].
      destruct (l_mask d); discriminate.
  - left. unfold do_crop in E. cbn in E. injection E as <- <- <-. auto.
Qed.

(** Marked pixels of the deciding layer lie inside the box. *)
Lemma crop_keeps : forall d key cx cy c y x p, is_picture (l_h d) (l_w d) (pic d) ->
  key_layer d = Some key -> do_crop true d = Some (cx, cy, c) ->
  0 <= y -> 0 <= x -> pixel_at key y x p -> marked p ->
  0 <= y - cy < l_h c /\ 0 <= x - cx < l_w c.
Proof.
  intros d key cx cy c y x p P K E Hy Hx Px M.
  destruct (key_is_layer d key P K) as (k & L).
  destruct (layer_pixel_range _ _ _ _ _ _ _ L Hy Hx Px) as [Ry Rx].
  rewrite (do_crop_eq d key K) in E. cbn zeta in E. apply some_inj in E.
  apply pair_inj in E as [E Ec]. apply pair_inj in E as [Ex Ey]. subst c cx cy. cbn [l_w l_h].
  assert (Cx : In x (cols_used (l_w d) key)).
  { apply (cols_used_in _ _ _ _ _ L). split; [lia|]. exists y, p. split; [lia|]. split; assumption. }
  assert (Cy : In y (rows_used (l_h d) key)).
  { apply (rows_used_in _ _ _ _ _ L). split; [lia|]. exists x, p. split; [lia|]. split; assumption. }
  pose proof (min_default_le _ _ Cx). pose proof (max_default_ge _ _ Cx).
  pose proof (min_default_le _ _ Cy). pose proof (max_default_ge _ _ Cy). lia.
Qed.

Lemma drawn_cut : forall l cx cy w h ox oy X Y v, 0 <= cx -> 0 <= cy ->
  0 <= X - (ox + cx) < w -> 0 <= Y - (oy + cy) < h ->
  (drawn l ox oy X Y v <-> drawn (cut cx cy w h l) (ox + cx) (oy + cy) X Y v).
Proof.
  intros l cx cy w h ox oy X Y v Hx Hy A B. unfold drawn. rewrite cut_pixel by lia.
  replace (Y - (oy + cy) + cy) with (Y - oy) by lia. replace (X - (ox + cx) + cx) with (X - ox) by lia.
  split; intros (P & Q & R); repeat split; try lia; exact R.
Qed.
