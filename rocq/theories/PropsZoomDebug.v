(** C72: zoom debug builds tint every sprite by its zoom level.
    C73: alternative sprites never clash. *)
From Coq Require Import ZArith List Bool Lia.
From Verif Require Import Base BaseFacts SpriteModel ZoomDebugModel SpecZoomDebug ZoomDebugProofs.
Import ListNotations.
Open Scope Z_scope.

(** ** C72 *)

(** The states of the class: no table at first, then what sprites drawn add. *)
Inductive reached (best : Z -> list Z) : list (Z * table) -> Prop :=
| reached_start : reached best []
| reached_draw : forall st zoom d d' size st', reached best st -> debug_layers best zoom d st = Some (d', size, st') -> reached best st'.
Lemma reached_tables best st : reached best st -> tables_ok best st.
Proof.
  induction 1 as [|st zoom d d' size st' R IH H]; [apply tables_nil|]. unfold debug_layers in H. apply bind_some in H as (rgb & _ & H).
  destruct (l_mask d); [|apply some_inj in H; apply pair_inj in H as [_ <-]; exact IH].
  apply bind_some in H as ([t st1] & T & H). apply bind_some in H as (nm & _ & H). apply some_inj in H. apply pair_inj in H as [_ <-].
  exact (proj1 (proj2 (recolour_ok _ _ _ _ _ IH T))).
Qed.

(** Whatever was drawn before: the size and the alpha layer stay, each colour
    is the tint of what it was, index 0 stays 0 and the other indices become
    the colour found for this index at this zoom level. *)
Theorem C72_tint : forall best st zoom d d' size st', reached best st -> debug_layers best zoom d st = Some (d', size, st') ->
  l_w d' = l_w d /\ l_h d' = l_h d /\ l_alpha d' = l_alpha d /\
  match l_rgb d, l_rgb d' with
  | None, None => True
  | Some l, Some l' => forall x y r g b, pixel l x y = Some [r; g; b] -> is_byte r -> is_byte g -> is_byte b ->
      is_zoom zoom /\ pixel l' x y = Some (let '(r', g', b') := tint zoom (r, g, b) in [r'; g'; b'])
  | _, _ => False
  end /\
  match l_mask d, l_mask d' with
  | None, None => True
  | Some l, Some l' => is_zoom zoom /\ forall x y i, pixel l x y = Some [i] ->
      exists v, pixel l' x y = Some [v] /\ (i = 0 -> v = 0) /\ (i <> 0 -> nth_error (best zoom) (Z.to_nat (i - 1)) = Some v)
  | _, _ => False
  end.
Proof.
  intros best st zoom d d' size st' R H. pose proof (reached_tables _ _ R) as O. unfold debug_layers in H. apply bind_some in H as (rgb & RGB & H).
  assert (C : match l_rgb d, rgb with
    | None, None => True
    | Some l, Some l' => forall x y r g b, pixel l x y = Some [r; g; b] -> is_byte r -> is_byte g -> is_byte b ->
        is_zoom zoom /\ pixel l' x y = Some (let '(r', g', b') := tint zoom (r, g, b) in [r'; g'; b'])
    | _, _ => False end).
  { destruct (l_rgb d) as [ni|]; [|apply some_inj in RGB; subst rgb; exact I]. apply bind_some in RGB as (c & G & RGB). apply some_inj in RGB. subst rgb.
    intros x y r g b P Hr Hg Hb. split; [exact (zoom_get _ _ G)|]. rewrite pixel_map, P. cbn [option_map]. now rewrite (tint_spec zoom c r g b G Hr Hg Hb). }
  destruct (l_mask d) as [nm|].
  - apply bind_some in H as ([t st1] & T & H). apply bind_some in H as (nm' & M & H). apply some_inj in H. apply pair_inj in H as [H _]. apply pair_inj in H as [<- _]. cbn [l_w l_h l_alpha l_rgb l_mask].
    destruct (recolour_ok _ _ _ _ _ O T) as (TC & _ & Z0). split; [reflexivity|]. split; [reflexivity|]. split; [reflexivity|]. split; [exact C|]. split; [exact Z0|]. intros x y i P. pose proof (pixel_map_opt _ _ _ x y M) as Q. rewrite P in Q. cbn [look_px] in Q.
    assert (S : pixel nm' x y <> None).
    { rewrite Q. clear Q. intros N. unfold pixel in P. destruct (nth_error nm y) as [row|] eqn:Er; [|discriminate].
      pose proof (map_opt_nth _ _ _ M y) as A. rewrite Er in A. destruct (nth_error nm' y) as [row'|] eqn:Er'.
      - symmetry in A. pose proof (map_opt_nth _ _ _ A x) as B. rewrite P in B. cbn [look_px] in B. rewrite N in B. apply nth_error_None in B. rewrite (map_opt_length _ _ _ A) in B.
        assert (X : nth_error row x <> None) by congruence. apply nth_error_Some in X. lia.
      - apply nth_error_None in Er'. rewrite (map_opt_length _ _ _ M) in Er'. assert (X : nth_error nm y <> None) by congruence. apply nth_error_Some in X. lia. }
    destruct (Z.leb_spec 0 i) as [L|L]; [|contradiction (S Q)]. rewrite TC in Q. destruct (nth_error (0 :: best zoom) (Z.to_nat i)) as [v|] eqn:E; [|contradiction (S Q)].
    exists v. split; [exact Q|]. split.
    + intros ->. cbn in E. congruence.
    + intros N. destruct (Z.to_nat i) as [|n] eqn:Z1; [lia|]. cbn [nth_error] in E. replace (Z.to_nat (i - 1)) with n by lia. exact E.
  - apply some_inj in H. apply pair_inj in H as [H _]. apply pair_inj in H as [<- _]. cbn [l_w l_h l_alpha l_rgb l_mask].
    split; [reflexivity|]. split; [reflexivity|]. split; [reflexivity|]. split; [exact C|exact I].
Qed.
(** So what is transparent stays so, and what is not does too. *)
Theorem C72_transparency : forall best st zoom d d' size st' l l' x y i, searches best -> reached best st -> debug_layers best zoom d st = Some (d', size, st') ->
  l_mask d = Some l -> l_mask d' = Some l' -> pixel l x y = Some [i] -> exists v, pixel l' x y = Some [v] /\ (v = 0 <-> i = 0).
Proof.
  intros best st zoom d d' size st' l l' x y i S R H L L' P. destruct (C72_tint _ _ _ _ _ _ _ R H) as (_ & _ & _ & _ & M). rewrite L, L' in M. destruct M as [_ M].
  destruct (M x y i P) as (v & Q & Z0 & NZ). exists v. split; [exact Q|]. split; [|exact Z0]. intros ->. destruct (Z.eq_dec i 0) as [E|N]; [exact E|].
  specialize (NZ N). apply nth_error_In in NZ. destruct (S zoom) as [_ F]. rewrite Forall_forall in F. specialize (F _ NZ). lia.
Qed.
(** It draws every picture of bytes at the six zoom levels. *)
Theorem C72_draws : forall best st zoom d, searches best -> reached best st -> is_zoom zoom ->
  match l_mask d with Some l => byte_layer 1 l | None => True end -> exists d' size st', debug_layers best zoom d st = Some (d', size, st').
Proof.
  intros best st zoom d S R Z0 B. pose proof (reached_tables _ _ R) as O. destruct (get_zoom zoom Z0) as [c C]. unfold debug_layers.
  assert (A : exists rgb, (match l_rgb d with None => Some None | Some ni => do c <- get zoom ZOOM_DEBUG_COLOURS; Some (Some (map (map (tint_px c)) ni)) end) = Some rgb).
  { destruct (l_rgb d); [rewrite C; cbn [bind]|]; eexists; reflexivity. }
  destruct A as [rgb ->]. cbn [bind]. destruct (l_mask d) as [l|]; [|eauto].
  assert (T : exists t st1, get_debug_recolour best zoom st = Some (t, st1)).
  { unfold get_debug_recolour. destruct (get zoom st); [eauto|]. rewrite C. cbn [bind]. eauto. }
  destruct T as (t & st1 & T). rewrite T. cbn [bind]. destruct (recolour_ok _ _ _ _ _ O T) as (TC & _ & _).
  assert (M : exists m, map_opt (map_opt (look_px (t_colours t))) l = Some m).
  { apply map_opt_total. eapply Forall_impl; [|exact B]. intros row F. assert (X : exists m, map_opt (look_px (t_colours t)) row = Some m); [|destruct X as [m ->]; discriminate].
    apply map_opt_total. eapply Forall_impl; [|exact F]. intros p [L Fp]. destruct p as [|i [|? ?]]; try discriminate L. inversion Fp as [|? ? I _]; subst. unfold is_byte in I. cbn [look_px].
    destruct (Z.leb_spec 0 i); [|lia]. rewrite TC. destruct (nth_error (0 :: best zoom) (Z.to_nat i)) eqn:E; [discriminate|]. apply nth_error_None in E. destruct (S zoom) as [K _]. cbn [List.length] in E. rewrite K in E. lia. }
  destruct M as [m ->]. cbn [bind]. eauto.
Qed.

(** Without the option every resource is written as it is. *)
Theorem C72_off : forall is_sprite l written, incl written l -> written_objects false is_sprite l written = Some (map Given written).
Proof.
  intros is_sprite l written I. unfold written_objects. cbv zeta.
  rewrite prepared_total by (intros i J _; apply find_given; [exact J|apply andb_false_r]). cbn [bind].
  induction written as [|i w IH]; [reflexivity|]. cbn [map_opt]. rewrite find_given; [|apply I; left; reflexivity|apply andb_false_r]. cbn [bind].
  rewrite IH by (intros x X; apply I; right; exact X). reflexivity.
Qed.
(** With the option, a grf without sprites is written the same ... *)
Theorem C72_no_sprites : forall is_sprite l written, incl written l -> (forall i, In i l -> is_sprite i = false) ->
  written_objects true is_sprite l written = Some (map Given written).
Proof.
  intros is_sprite l written I N. unfold written_objects. cbv zeta.
  rewrite prepared_total by (intros i J S; rewrite (N i J) in S; discriminate). cbn [bind].
  induction written as [|i w IH]; [reflexivity|]. cbn [map_opt]. assert (J : In i l) by (apply I; left; reflexivity).
  rewrite find_given; [|exact J|rewrite (N i J); reflexivity]. cbn [bind]. rewrite IH by (intros x X; apply I; right; exact X). reflexivity.
Qed.
(** ... but no grf with a sprite is written at all: the map has the wrappers
    as keys, the look-up asks for the sprite, KeyError. *)
Theorem C72_debug_refuted : forall is_sprite l written i, In i l -> is_sprite i = true -> written_objects true is_sprite l written = None.
Proof.
  intros is_sprite l written i I S. unfold written_objects. cbv zeta. rewrite (prepared_none is_sprite _ i S); [reflexivity| |exact I].
  apply find_wrapped. rewrite S. reflexivity.
Qed.
(** The first picture of palette indices drawn at a zoom level has elements of
    eight bytes, the same picture drawn again of one: the buffers given to the
    compressor differ. *)
Theorem C72_first_use_refuted : forall best zoom d l px, searches best -> is_zoom zoom -> l_rgb d = None -> l_mask d = Some l -> byte_layer 1 l -> concat l = px -> px <> [] ->
  exists d' st, debug_layers best zoom d [] = Some (d', 8, st) /\ debug_layers best zoom d st = Some (d', 1, st) /\
    forall l', l_mask d' = Some l' -> List.length (index_buffer 8 (concat l')) = (8 * List.length px)%nat /\ List.length (index_buffer 1 (concat l')) = List.length px.
Proof.
  intros best zoom d l px S Z0 NR M B E N. assert (D : exists d' size st', debug_layers best zoom d [] = Some (d', size, st')) by (apply C72_draws; [exact S|constructor|exact Z0|rewrite M; exact B]).
  destruct D as (d' & size & st & D). pose proof D as D0. unfold debug_layers in D. rewrite NR, M in D. cbn [bind] in D. unfold get_debug_recolour in D. cbn [get] in D. destruct (get_zoom zoom Z0) as [c C]. rewrite C in D. cbn [bind] in D.
  apply bind_some in D as (m & Em & D). apply some_inj in D. apply pair_inj in D as [D <-]. apply pair_inj in D as [<- <-]. cbn [t_colours t_size] in *.
  eexists _, _. split; [exact D0|]. split.
  - unfold debug_layers. rewrite NR, M. cbn [bind]. unfold get_debug_recolour. cbn [get]. rewrite Z.eqb_refl. cbn [bind t_colours t_size]. rewrite Em. reflexivity.
  - cbn [l_mask]. intros l' L. apply some_inj in L. subst l' px.
    assert (K : List.length (concat m) = List.length (concat l) /\ Forall (fun p => List.length p = 1%nat) (concat m)).
    { clear -Em. revert m Em. induction l as [|row l IH]; intros m H; cbn [map_opt] in H; [apply some_inj in H; subst m; split; [reflexivity|constructor]|].
      apply bind_some in H as (row' & A & H). apply bind_some in H as (m' & B & H). apply some_inj in H. subst m. destruct (IH _ B) as [I J]. cbn [concat]. rewrite !app_length, I. split.
      - f_equal. exact (map_opt_length _ _ _ A).
      - apply Forall_app. split; [|exact J]. clear -A. revert row' A. induction row as [|p row IH]; intros row' H; cbn [map_opt] in H; [apply some_inj in H; subst; constructor|].
        apply bind_some in H as (q & A & H). apply bind_some in H as (r & B & H). apply some_inj in H. subst row'. constructor; [|apply IH, B].
        unfold look_px in A. destruct p as [|i [|? ?]]; try discriminate A. destruct (0 <=? i); [|discriminate A]. apply bind_some in A as (v & _ & A). apply some_inj in A. subst q. reflexivity. }
    destruct K as [K1 K2]. rewrite <- K1. clear -K2. induction K2 as [|p px P F [IH1 IH2]]; [split; reflexivity|]. destruct p as [|v [|? ?]]; try discriminate P.
    unfold index_buffer in *. cbn [flat_map List.length]. rewrite app_nil_r, !app_length, IH1, IH2. cbn [List.length]. rewrite !repeat_length. change (Z.to_nat (8 - 1)) with 7%nat. change (Z.to_nat (1 - 1)) with 0%nat. split; lia.
Qed.

Definition some_best (zoom : Z) : list Z := map (fun i => (zoom + Z.of_nat i) mod 200 + 1) (seq 0 255).
Example C72_case : searches some_best.
Proof.
  intros zoom. unfold some_best. split; [rewrite map_length, seq_length; reflexivity|]. apply Forall_forall. intros c I. apply in_map_iff in I as (i & <- & _).
  pose proof (Z.mod_pos_bound (zoom + Z.of_nat i) 200 ltac:(lia)). lia.
Qed.
Example C72_drawn : option_map (fun e => (l_rgb (fst (fst e)), l_mask (fst (fst e)), snd (fst e)))
    (debug_layers some_best 3 (mk_layers 2 1 (Some [[[10; 20; 30]; [255; 1; 2]]]) None (Some [[[0]; [7]]])) []) =
  Some (Some [[[0; 20; 30]; [0; 1; 2]]], Some [[[0]; [10]]], 8).
Proof. vm_compute. reflexivity. Qed.

(** ** C73 *)

(** Sprites are accepted as alternatives exactly if no two have the same zoom
    level and depth. *)
Theorem C73_accepted : forall l, alternatives l = Some l <-> NoDup l.
Proof.
  intros l. unfold alternatives. rewrite <- distinct_nodup. destruct (Z.eqb_spec (distinct_count l) (len l)) as [E|N]; split; intros H; try assumption; try reflexivity; try discriminate. contradiction.
Qed.
Theorem C73_refused : forall l, alternatives l = None <-> ~ NoDup l.
Proof.
  intros l. unfold alternatives. rewrite <- distinct_nodup. destruct (Z.eqb_spec (distinct_count l) (len l)) as [E|N]; split; intros H; try reflexivity; try discriminate; try assumption. contradiction.
Qed.
(** Asking for a zoom level, a depth or both gives the first alternative that
    has them, and nothing only if there is none. *)
Theorem C73_get : forall zoom bpp l n, get_sprite zoom bpp l = Some n <->
  (exists s, nth_error l n = Some s /\ (forall z, zoom = Some z -> alt_zoom s = z) /\ (forall b, bpp = Some b -> alt_bpp s = Some b)) /\
  forall m s, (m < n)%nat -> nth_error l m = Some s -> ~ ((forall z, zoom = Some z -> alt_zoom s = z) /\ (forall b, bpp = Some b -> alt_bpp s = Some b)).
Proof.
  assert (M : forall zoom bpp s, alt_match zoom bpp s = true <-> (forall z, zoom = Some z -> alt_zoom s = z) /\ (forall b, bpp = Some b -> alt_bpp s = Some b)).
  { intros zoom bpp s. unfold alt_match. rewrite andb_true_iff. destruct zoom as [z|], bpp as [b|]; rewrite ?Z.eqb_eq, ?bpp_eqb_eq; split; intros [A B]; split; intros;
    repeat match goal with H : Some _ = Some _ |- _ => apply some_inj in H; subst end; auto; discriminate. }
  intros zoom bpp l n. rewrite get_sprite_spec. split; intros [(s & E & X) H]; (split; [exists s; split; [exact E|apply M, X]|]); intros m t L T.
  - specialize (H m t L T). intros Y. apply M in Y. congruence.
  - specialize (H m t L T). destruct (alt_match zoom bpp t) eqn:Y; [|reflexivity]. apply M in Y. contradiction.
Qed.
Theorem C73_get_none : forall zoom bpp l, get_sprite zoom bpp l = None <->
  forall s, In s l -> ~ ((forall z, zoom = Some z -> alt_zoom s = z) /\ (forall b, bpp = Some b -> alt_bpp s = Some b)).
Proof.
  intros zoom bpp l. split.
  - intros N s I Y. apply In_nth_error in I as [n E].
    assert (X : forall k, (exists m s, (m <= k)%nat /\ nth_error l m = Some s /\ (forall z, zoom = Some z -> alt_zoom s = z) /\ (forall b, bpp = Some b -> alt_bpp s = Some b)) -> exists n, get_sprite zoom bpp l = Some n).
    { induction k as [|k IH].
      - intros (m & t & L & T & P). exists O. apply C73_get. replace m with O in T by lia. split; [eauto|lia].
      - intros (m & t & L & T & P). destruct (Nat.eq_dec m (Datatypes.S k)) as [->|Ne]; [|apply IH; exists m, t; split; [lia|auto]].
        destruct (get_sprite zoom bpp l) as [j|] eqn:G; [eauto|]. exists (Datatypes.S k). rewrite <- G. apply C73_get. split; [eauto|]. intros m' s' L' T' P'.
        destruct (IH (ex_intro _ m' (ex_intro _ s' (conj (proj1 (Nat.lt_succ_r m' k) L') (conj T' P'))))) as [j J]. discriminate J. }
    destruct (X n) as [j J]; [exists n, s; auto|]. congruence.
  - intros H. destruct (get_sprite zoom bpp l) as [n|] eqn:G; [|reflexivity]. apply C73_get in G as [(s & E & P) _]. destruct (H s); [|exact P]. exact (nth_error_In _ _ E).
Qed.
(** Each accepted alternative of given depth is found by its attributes. *)
Theorem C73_found : forall l n s b, alternatives l = Some l -> nth_error l n = Some s -> alt_bpp s = Some b -> get_sprite (Some (alt_zoom s)) (Some b) l = Some n.
Proof.
  intros l n s b A E B. apply C73_accepted in A. apply C73_get. split; [exists s; split; [exact E|split; intros ? X; apply some_inj in X; congruence]|].
  intros m t L T [Z0 B0]. specialize (Z0 _ eq_refl). specialize (B0 _ eq_refl). assert (t = s) by (destruct t, s; cbn in *; congruence). subst t.
  rewrite NoDup_nth_error in A. assert (m = n) by (apply A; [apply nth_error_Some; congruence|congruence]). lia.
Qed.
(** Their records fill different slots of the game if every depth is given and
    is 8 or 32, whatever the pictures are. *)
Theorem C73_slots_partial : forall l pictures n m s t, alternatives l = Some l -> n <> m ->
  nth_error l n = Some s -> nth_error l m = Some t -> Forall (fun s => alt_bpp s = Some 8 \/ alt_bpp s = Some 32) l ->
  slot (record_start (pictures n) s) <> slot (record_start (pictures m) t).
Proof.
  intros l pictures n m s t A N E F D Q. apply C73_accepted in A. rewrite Forall_forall in D. pose proof (D _ (nth_error_In _ _ E)) as Ds. pose proof (D _ (nth_error_In _ _ F)) as Dt.
  assert (s = t).
  { destruct s as [z p], t as [y q]. unfold slot, record_start, written_bpp in Q. cbn [alt_zoom alt_bpp] in *. destruct Ds as [-> | ->], Dt as [-> | ->]; cbn in Q; injection Q as Q; try discriminate; congruence. }
  subst t. rewrite NoDup_nth_error in A. apply N, A; [apply nth_error_Some; congruence|congruence].
Qed.
(** Otherwise accepted alternatives can clash: a sprite without a depth beside
    one with the depth of its picture, or depths 24 and 32. *)
Theorem C73_slots_refuted : forall zoom,
  (alternatives [mk_alt zoom None; mk_alt zoom (Some 8)] = Some [mk_alt zoom None; mk_alt zoom (Some 8)] /\
   slot (record_start 8 (mk_alt zoom None)) = slot (record_start 8 (mk_alt zoom (Some 8)))) /\
  (alternatives [mk_alt zoom (Some 24); mk_alt zoom (Some 32)] = Some [mk_alt zoom (Some 24); mk_alt zoom (Some 32)] /\
   slot (record_start 24 (mk_alt zoom (Some 24))) = slot (record_start 32 (mk_alt zoom (Some 32)))).
Proof.
  intros zoom. repeat split; apply C73_accepted; (constructor; [intros [E|[]]; discriminate|]); (constructor; [intros []|constructor]).
Qed.
(** And sprites without depths that do not clash are refused. *)
Theorem C73_depths_refuted : forall zoom, alternatives [mk_alt zoom None; mk_alt zoom None] = None /\
  slot (record_start 8 (mk_alt zoom None)) <> slot (record_start 32 (mk_alt zoom None)).
Proof.
  intros zoom. split; [|discriminate]. apply C73_refused. intros N. inversion N as [|? ? I _]; subst. apply I. left. reflexivity.
Qed.
(** No alternatives at all are accepted too: a sprite without any record. *)
Theorem C73_none_refuted : alternatives [] = Some []. Proof. reflexivity. Qed.
Example C73_case : alternatives [mk_alt 0 (Some 8); mk_alt 0 (Some 32); mk_alt 1 (Some 32)] = Some [mk_alt 0 (Some 8); mk_alt 0 (Some 32); mk_alt 1 (Some 32)] /\
  get_sprite (Some 0) (Some 32) [mk_alt 0 (Some 8); mk_alt 0 (Some 32); mk_alt 1 (Some 32)] = Some 1%nat /\
  get_sprite None (Some 32) [mk_alt 0 (Some 8); mk_alt 0 (Some 32); mk_alt 1 (Some 32)] = Some 1%nat.
Proof. repeat split. Qed.

Print Assumptions C72_tint.
Print Assumptions C72_transparency.
Print Assumptions C72_draws.
Print Assumptions C72_off.
Print Assumptions C72_no_sprites.
Print Assumptions C72_debug_refuted.
Print Assumptions C72_first_use_refuted.
Print Assumptions C73_accepted.
Print Assumptions C73_refused.
Print Assumptions C73_get.
Print Assumptions C73_get_none.
Print Assumptions C73_found.
Print Assumptions C73_slots_partial.
Print Assumptions C73_slots_refuted.
Print Assumptions C73_depths_refuted.
Print Assumptions C73_none_refuted.
