(** C79: the image a sprite sheet makes. *)
From Coq Require Import ZArith List Bool Lia.
From Verif Require Import Base BaseFacts TableModel SpecTable SpriteSheetProofs.
Import ListNotations.
Open Scope Z_scope.

Definition sizes_ok (look : Z -> dims) (sheet : list Z) : Prop :=
  forall s, In s sheet -> 0 <= sp_w (look s) /\ 0 <= sp_h (look s).

(** Every sprite of the sheet knows a place in the image at which the image
    shows exactly the sprite, at least the padding away from every edge. *)
Theorem C79_reads_back : forall look sheet padding columns before after img,
  0 <= padding -> sizes_ok look sheet ->
  make_image look sheet padding columns before = Some (after, img) ->
  forall s, In s sheet -> exists x y,
    after s = Some (x, y) /\
    reads (im_at img) x y (sp_w (look s)) (sp_h (look s)) (sp_pix (look s)) /\
    inside padding (im_w img) (im_h img) (x, y, sp_w (look s), sp_h (look s)).
Proof.
  intros look l p c pos0 pos' img P Z M s I.
  assert (0 < c)%nat as C by (unfold make_image in M; destruct c; [discriminate|lia]).
  destruct (make_image_inv look l p c P C Z pos0) as (pos2 & at2 & E & (R & Q & _ & _)).
  rewrite E in M. injection M as <- <-.
  apply In_nth_error in I as [i Ei].
  assert (i < length l)%nat as L by (apply nth_error_Some; congruence).
  destruct (Q i s L Ei) as (j & Lj & Ej & Pj).
  exists (xi look l p c j), (yi look l p c j). split; [exact Pj|]. split; [exact (R j s Lj Ej)|].
  exact (inside_all look l p c P C Z j s Ej).
Qed.

(** Different sprites of the sheet are at least the padding apart. *)
Theorem C79_apart : forall look sheet padding columns before after img,
  0 <= padding -> sizes_ok look sheet ->
  make_image look sheet padding columns before = Some (after, img) ->
  forall s s' x y x' y', In s sheet -> In s' sheet -> s <> s' ->
    after s = Some (x, y) -> after s' = Some (x', y') ->
    apart padding (x, y, sp_w (look s), sp_h (look s)) (x', y', sp_w (look s'), sp_h (look s')).
Proof.
  intros look l p c pos0 pos' img P Z M s s' x y x' y' I I' N Hs Hs'.
  assert (0 < c)%nat as C by (unfold make_image in M; destruct c; [discriminate|lia]).
  destruct (make_image_inv look l p c P C Z pos0) as (pos2 & at2 & E & (R & Q & _ & _)).
  rewrite E in M. injection M as <- <-.
  apply In_nth_error in I as [i Ei]. apply In_nth_error in I' as [i' Ei'].
  destruct (Q i s ltac:(apply nth_error_Some; congruence) Ei) as (j & _ & Ej & Pj).
  destruct (Q i' s' ltac:(apply nth_error_Some; congruence) Ei') as (j' & _ & Ej' & Pj').
  rewrite Hs in Pj. rewrite Hs' in Pj'. injection Pj as -> ->. injection Pj' as -> ->.
  apply (apart_ne look l p c P C Z j j' s s' Ej Ej'). intros ->. congruence.
Qed.

(** Sprites that are not in the sheet are left alone; when no sprite is in the
    sheet twice, everything between the sprites is the background. *)
Theorem C79_rest : forall look sheet padding columns before after img,
  0 <= padding -> sizes_ok look sheet ->
  make_image look sheet padding columns before = Some (after, img) ->
  (forall s, ~ In s sheet -> after s = before s) /\
  (NoDup sheet -> forall px py,
     (forall s x y, In s sheet -> after s = Some (x, y) ->
        ~ (x <= px < x + sp_w (look s) /\ y <= py < y + sp_h (look s))) ->
     im_at img px py = 255).
Proof.
  intros look l p c pos0 pos' img P Z M.
  assert (0 < c)%nat as C by (unfold make_image in M; destruct c; [discriminate|lia]).
  destruct (make_image_inv look l p c P C Z pos0) as (pos2 & at2 & E & (R & Q & U & B)).
  rewrite E in M. injection M as <- <-. split.
  - intros s N. apply U. intros j _ Ej. apply N, nth_error_In with (n := j), Ej.
  - intros D px py N. cbn [im_at]. apply B. intros j s Lj Ej W.
    destruct (Q j s Lj Ej) as (j' & Lj' & Ej' & Pj).
    assert (j' = j) as -> by (apply (proj1 (NoDup_nth_error l) D); [exact Lj'|congruence]).
    apply (N s _ _ (nth_error_In _ _ Ej) Pj). exact W.
Qed.

(** The call succeeds for every sheet, also an empty one, unless there are no
    columns. *)
Theorem C79_made : forall look sheet padding columns before,
  0 <= padding -> sizes_ok look sheet ->
  ((exists r, make_image look sheet padding columns before = Some r) <-> columns <> 0%nat).
Proof.
  intros look l p c pos0 P Z. split.
  - intros [r M] ->. unfold make_image in M. cbn in M. discriminate.
  - intros N. destruct (make_image_inv look l p c P ltac:(lia) Z pos0) as (pos2 & at2 & E & _). eauto.
Qed.

(** No two neighbours in the list are farther right than [columns] to a line:
    the sprite numbered k * columns starts a line at the left padding, and the
    sprites of its line stand on the same y. *)
Theorem C79_lines : forall look sheet padding columns before after img,
  0 <= padding -> sizes_ok look sheet -> NoDup sheet ->
  make_image look sheet padding columns before = Some (after, img) ->
  forall k m s, (m < columns)%nat -> nth_error sheet (k * columns + m) = Some s ->
  exists s0 x y, nth_error sheet (k * columns) = Some s0 /\ after s0 = Some (padding, y) /\ after s = Some (x, y).
Proof.
  intros look l p c pos0 pos' img P Z D M k m s Lm Es.
  assert (0 < c)%nat as C by lia.
  destruct (make_image_inv look l p c P C Z pos0) as (pos2 & at2 & E & (R & Q & U & B)).
  rewrite E in M. injection M as <- <-.
  assert (Li : (k * c + m < length l)%nat) by (apply nth_error_Some; congruence).
  destruct (nth_error l (k * c)) as [s0|] eqn:E0; [|apply nth_error_None in E0; lia].
  assert (U1 : forall i t, nth_error l i = Some t -> pos2 t = Some (xi look l p c i, yi look l p c i)).
  { intros i t Ei. assert (i < length l)%nat as L by (apply nth_error_Some; congruence).
    destruct (Q i t L Ei) as (j & Lj & Ej & Pj).
    assert (j = i) as <- by (apply (proj1 (NoDup_nth_error l) D); [exact Lj|congruence]). exact Pj. }
  exists s0, (xi look l p c (k * c + m)), (yi look l p c (k * c)). split; [reflexivity|]. split.
  - assert (H0 : ((k * c) mod c = 0)%nat) by (apply Nat.mod_mul; lia).
    rewrite (U1 _ _ E0), (xi_start look l p c C Z (k * c)%nat H0). reflexivity.
  - rewrite (U1 _ _ Es). unfold yi. rewrite Nat.div_mul by lia.
    replace ((k * c + m) / c)%nat with k; [reflexivity|]. apply (Nat.div_unique _ _ _ m); lia.
Qed.

(** ** A case that meets the hypotheses: three sprites in two columns *)
Definition case_look (s : Z) : dims := mkDims (s + 1) (2 * s) (fun i j => s * 10 + i).
Example C79_case : match make_image case_look [1; 2; 3] 5 2 (fun _ => None) with
  | Some (after, img) =>
      map after [1; 2; 3; 4] = [Some (5, 5); Some (12, 5); Some (5, 14); None] /\
      im_w img = 20 /\ im_h img = 25 /\ im_at img 13 6 = 21 /\ im_at img 0 0 = 255
  | None => False end.
Proof. cbn. repeat split. Qed.
Example C79_case_sizes : sizes_ok case_look [1; 2; 3].
Proof. intros s I. cbn in I. unfold case_look. cbn -[Z.mul]. lia. Qed.
Example C79_case_twice : match make_image case_look [1; 1] 1 10 (fun _ => None) with
  | Some (after, img) => after 1 = Some (4, 1) /\ im_at img 1 1 = 10
  | None => False end.
Proof. cbn. split; reflexivity. Qed.
(** The padding has to be non-negative: with -3 two sprites overlap. *)
Example C79_negative : match make_image (fun _ => mkDims 9 9 (fun _ _ => 1)) [1; 2] (-3) 2 (fun _ => None) with
  | Some (after, _) => after 1 = Some (-3, -3) /\ after 2 = Some (3, -3)
  | None => False end.
Proof. cbn. split; reflexivity. Qed.

Print Assumptions C79_reads_back.
Print Assumptions C79_apart.
Print Assumptions C79_rest.
Print Assumptions C79_made.
Print Assumptions C79_lines.
