(** Proofs about SpriteTable and SpriteSheet. *)
From Coq Require Import ZArith List Bool Lia.
From Verif Require Import Base BaseFacts CommonModel RecordsModel RecordsProofs Action2Model TableModel SpecTable.
Import ListNotations.
Open Scope Z_scope.

(** ** SpriteTable *)
Section Table.
  Context {A : Type}.
  Implicit Types (t : table A) (h : list (list A)).

  (** A program's calls of add_row, in order; the ValueError of a wrong row is
      caught.  What each call returned. *)
  Fixpoint run_adds t h : table A * list (option Z) :=
    match h with
    | [] => (t, [])
    | row :: r =>
        match add_row t row with
        | Some (t', k) => let '(t'', ks) := run_adds t' r in (t'', Some k :: ks)
        | None => let '(t'', ks) := run_adds t r in (t'', None :: ks)
        end
    end.

  Definition fits w (row : list A) : bool := match w with Some w => len row =? w | None => true end.

  Lemma add_row_eq t row : add_row t row =
    if fits (tb_width t) row
    then Some (mkTable (tb_feature t) (tb_rows t ++ [row]) (tb_width t), len (tb_rows t)) else None.
  Proof. unfold add_row, fits. destruct (tb_width t) as [w|]; [|reflexivity]. destruct (len row =? w); reflexivity. Qed.

  Lemma run_adds_table h : forall t,
    fst (run_adds t h) = mkTable (tb_feature t) (tb_rows t ++ filter (fits (tb_width t)) h) (tb_width t).
  Proof.
    induction h as [|row r IH]; intros t; cbn.
    - rewrite app_nil_r. destruct t; reflexivity.
    - rewrite add_row_eq. destruct (fits (tb_width t) row) eqn:F.
      + pose proof (IH (mkTable (tb_feature t) (tb_rows t ++ [row]) (tb_width t))) as H.
        destruct (run_adds _ r) as [t'' ks]. cbn in H |- *. rewrite H, <- app_assoc. reflexivity.
      + pose proof (IH t) as H. destruct (run_adds t r) as [t'' ks]. exact H.
  Qed.

  Lemma run_adds_len h : forall t, length (snd (run_adds t h)) = length h.
  Proof.
    induction h as [|row r IH]; intros t; cbn; [reflexivity|].
    rewrite add_row_eq. destruct (fits (tb_width t) row).
    - pose proof (IH (mkTable (tb_feature t) (tb_rows t ++ [row]) (tb_width t))) as H.
      destruct (run_adds _ r). cbn in *. lia.
    - pose proof (IH t) as H. destruct (run_adds t r). cbn in *. lia.
  Qed.

  Lemma run_adds_ids h : forall t i row, nth_error h i = Some row ->
    nth_error (snd (run_adds t h)) i =
    Some (if fits (tb_width t) row
          then Some (len (tb_rows t) + len (filter (fits (tb_width t)) (firstn i h))) else None).
  Proof.
    induction h as [|row0 r IH]; intros t i row E; [destruct i; discriminate|].
    cbn [run_adds]. rewrite add_row_eq. destruct (fits (tb_width t) row0) eqn:F.
    - pose proof (IH (mkTable (tb_feature t) (tb_rows t ++ [row0]) (tb_width t))) as H.
      destruct (run_adds _ r) as [t'' ks]. cbn [snd] in H; destruct i as [|i]; cbn in E |- *.
      + inversion E; subst. rewrite F. cbn. f_equal. f_equal. unfold len. cbn. lia.
      + rewrite (H i row E). cbn. rewrite F. destruct (fits (tb_width t) row); [|reflexivity].
        f_equal. f_equal. unfold len. rewrite app_length. cbn. lia.
    - pose proof (IH t) as H. destruct (run_adds t r) as [t'' ks]. cbn [snd] in H; destruct i as [|i]; cbn in E |- *.
      + inversion E; subst. rewrite F. reflexivity.
      + rewrite (H i row E). cbn. rewrite F. reflexivity.
  Qed.

  (** the row an accepted call stored *)
  Lemma filter_pos (p : list A -> bool) h : forall i row, nth_error h i = Some row -> p row = true ->
    nth_error (filter p h) (length (filter p (firstn i h))) = Some row.
  Proof.
    induction h as [|r0 r IH]; intros i row E P; [destruct i; discriminate|].
    destruct i as [|i]; cbn in E |- *.
    - inversion E; subst. rewrite P. reflexivity.
    - destruct (p r0); cbn; apply IH; assumption.
  Qed.

  Lemma nth_concat_rows (w : nat) (rows : list (list A)) : forall k row n,
    Forall (fun r => length r = w) rows -> nth_error rows k = Some row -> (n < w)%nat ->
    nth_error (List.concat rows) (k * w + n) = nth_error row n.
  Proof.
    induction rows as [|r0 r IH]; intros k row n F E L; [destruct k; discriminate|].
    inversion F as [|? ? F0 F1]; subst. destruct k as [|k]; cbn in E |- *.
    - inversion E; subst. rewrite nth_error_app1 by lia. reflexivity.
    - rewrite nth_error_app2 by lia. replace (length r0 + k * length r0 + n - length r0)%nat
        with (k * length r0 + n)%nat by lia. apply IH; assumption.
  Qed.

  Lemma concat_rows_len (w : nat) (rows : list (list A)) : Forall (fun r => length r = w) rows ->
    length (List.concat rows) = (length rows * w)%nat.
  Proof. induction 1 as [|r rs L F IH]; cbn; [reflexivity|]. rewrite app_length, IH. lia. Qed.

  Lemma flat_items (rows : list (list A)) : flat_map (map (@ISprite A)) rows = map (@ISprite A) (List.concat rows).
  Proof. induction rows as [|r rs IH]; cbn; [reflexivity|]. rewrite map_app, IH. reflexivity. Qed.
End Table.

Lemma vehicle_feature f : is_vehicle f = true <-> 0 <= f <= 3.
Proof. unfold is_vehicle. rewrite andb_true_iff, !Z.leb_le. tauto. Qed.

Lemma action1_bytes f n : 0 <= f <= 3 -> 1 <= n <= 65535 ->
  exists d, action1_data (mkA1 f n 8 None) = Some d /\ reads_as d f 0 n 8.
Proof.
  intros Hf Hn. unfold action1_data. cbn [a1_first_set a1_set_count a1_feature a1_sprite_count].
  destruct (n <=? 255) eqn:E.
  - apply Z.leb_le in E. exists [1; f; n; 255; 8; 0]. split.
    + cbn [concat_opt]. rewrite !(pack_B_ok f), !(pack_B_ok n) by lia. reflexivity.
    + apply (basic f n 8 0); lia.
  - apply Z.leb_gt in E. exists [1; f; 0; 255; 0; 0; 255; n mod 256; n / 256; 255; 8; 0]. split.
    + cbn [concat_opt]. rewrite !(pack_B_ok f), !(pack_H_ok n) by lia. reflexivity.
    + pose proof (Z.div_mod n 256 ltac:(lia)) as D. pose proof (Z.mod_pos_bound n 256 ltac:(lia)).
      replace n with (n mod 256 + 256 * (n / 256)) at 3 by lia.
      apply (extended f 0 0 (n mod 256) (n / 256) 8 0); try lia;
        split; try (apply Z.div_pos; lia); try (apply Z.div_le_upper_bound; lia); lia.
Qed.

Lemma action1_too_many f n : 65535 < n -> action1_data (mkA1 f n 8 None) = None.
Proof.
  intros H. unfold action1_data. cbn [a1_first_set a1_set_count a1_feature a1_sprite_count].
  destruct (n <=? 255) eqn:E; [apply Z.leb_le in E; lia|].
  cbn [concat_opt]. assert (pack_H n = None) as ->.
  { unfold pack_H. assert (n <? 65536 = false) as -> by (apply Z.ltb_ge; lia). rewrite andb_false_r. reflexivity. }
  cbn. destruct (pack_B f); reflexivity.
Qed.

(** ** The vehicle table *)
Lemma fits8 {A} (row : list A) : fits (Some 8) row = true <-> length row = 8%nat.
Proof. unfold fits, len. rewrite Z.eqb_eq. lia. Qed.

Lemma kept_width {A} (h : list (list A)) : Forall (fun r => length r = 8%nat) (filter (fits (Some 8)) h).
Proof. apply Forall_forall. intros r I. apply filter_In in I. apply fits8. tauto. Qed.

Lemma vehicle_table_inv {A} f t : vehicle_table f = Some t -> 0 <= f <= 3 /\ t = mkTable f (@nil (list A)) (Some 8).
Proof.
  unfold vehicle_table. destruct (is_vehicle f) eqn:V; [|discriminate]. intros [= <-].
  apply vehicle_feature in V. auto.
Qed.

Lemma get_sprites_full {A} f (rows : list (list A)) : 0 <= f <= 3 -> 1 <= len rows <= 65535 ->
  exists d, get_sprites (mkTable f rows (Some 8)) = Some (IAction1 d :: map ISprite (List.concat rows))
            /\ reads_as d f 0 (len rows) 8.
Proof.
  intros Hf Hn. destruct (action1_bytes f (len rows) Hf Hn) as (d & E & R). exists d. split; [|exact R].
  unfold get_sprites. cbn [tb_rows tb_width tb_feature]. destruct rows as [|r0 r]; [cbn in Hn; lia|].
  cbn [bind]. rewrite E. cbn [bind]. rewrite flat_items. reflexivity.
Qed.

Lemma get_sprites_bound {A} f (rows : list (list A)) items :
  get_sprites (mkTable f rows (Some 8)) = Some items -> 1 <= len rows <= 65535.
Proof.
  unfold get_sprites. cbn [tb_rows tb_width tb_feature]. destruct rows as [|r0 r]; [discriminate|].
  intros G. split; [unfold len; cbn [length]; lia|].
  destruct (Z_lt_ge_dec 65535 (len (r0 :: r))) as [L|L]; [|lia].
  cbn [bind] in G. rewrite action1_too_many in G by exact L. discriminate.
Qed.
