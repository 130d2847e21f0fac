(** C75: the image files and sprite statements of the decompiler.  The
    specification is SpecExtract; contexts are those reading a file leaves
    (C74). *)
From Coq Require Import ZArith List Bool String Lia.
From Verif Require Import Base BaseFacts RecordsModel RecordsProofs DecodeModel SheetProofs AnnounceModel AnnounceProofs SpecAnnounce ExtractModel SpecExtract PyValue PropsAnnounce ExtractProofs ExtractProofs2 ExtractProofs3.
Import ListNotations.
Open Scope string_scope.
Open Scope list_scope.
Open Scope Z_scope.

Lemma groups_ok c l : reached c -> from_file l -> let gs := by_group c (in_order (real_sprites l)) in
  NoDup (map fst gs) /\ good_groups (map fst gs) /\ (forall g m, In (g, m) gs -> Forall (fun s => isb (f_pos s)) m /\ Forall sized m).
Proof.
  intros R F gs. assert (M : forall g m s, In (g, m) gs -> In s m -> g = group_of c (f_id s) /\ In (RG s) l).
  { intros g m s I J. apply by_group_member in I. subst m. apply filter_In in J as [J E]. apply beq_ok in E. split; [exact E|apply in_order_in, J]. }
  split; [apply by_group_nodup|]. split.
  - apply good_reached. apply Forall_forall. intros g I. apply in_map_iff in I as ([g' m] & <- & I). cbn [fst]. pose proof (by_group_member _ _ _ _ I) as E.
    destruct m as [|s m]; [exfalso|destruct (M g' (s :: m) s I (or_introl eq_refl)) as [-> _]; apply reached_group, R].
    clear - I. unfold gs, by_group in I. revert I. assert (X : forall ss d, (forall m, In (g', m) d -> m <> []) -> In (g', []) (fold_left (fun g s => dict_append bytes_eq g (group_of c (f_id s)) s) ss d) -> False).
    { induction ss as [|s ss IH]; intros d D I; cbn [fold_left] in I; [exact (D _ I eq_refl)|]. apply (IH _) in I; [exact I|]. intros m J.
      unfold dict_append in J. assert (Y : forall d v, v <> [] -> (forall m, In (g', m) d -> m <> []) -> In (g', m) (dict_set bytes_eq d (group_of c (f_id s)) v) -> m <> []).
      { clear. induction d as [|[a b] d IH]; intros v V D J; cbn [dict_set] in J; [destruct J as [J|[]]; apply pair_inj in J as [_ <-]; exact V|]. destruct (bytes_eq _ a).
        - destruct J as [J|J]; [apply pair_inj in J as [_ <-]; exact V|apply D; now right].
        - destruct J as [J|J]; [apply D; left; exact J|apply (IH v V); [intros; apply D; now right|exact J]]. }
      revert J. apply Y; [|exact D]. intros E. symmetry in E. exact (app_cons_not_nil _ _ _ E). }
    apply X. intros m [].
  - intros g m I. split; apply Forall_forall; intros s J; destruct (M g m s I J) as [_ K]; destruct (F s K) as (A & B & C); [exact A|split; assumption].
Qed.

(** The statements of a sprite number: the sprites with this number in the
    order of the file, but for those that have an alpha channel and no
    colour. *)
Theorem C75_resolved : forall h1 h2 container c l files table, reached c -> from_file l -> extract h1 h2 container c l = Some (files, table) ->
  forall i, map e_sprite (statements table i) = filter (fun s => negb (just_alpha (g_type (f_s s)))) (graphics_of i l).
Proof.
  intros h1 h2 container c l fs table R F H i. apply extract_statements in H as (es & E & T). destruct (groups_ok c l R F) as (N & G & W). destruct (groups_entries _ _ _ _ _ _ _ E N G W) as (_ & M & _).
  rewrite T, (filter_map' e_sprite (fun s => i =? f_id s)), M, kept_ids. apply filter_ext. intros s. unfold kept. rewrite alpha_bits. reflexivity.
Qed.
Lemma entries_good : forall h1 h2 container c l files table, reached c -> from_file l -> extract h1 h2 container c l = Some (files, table) ->
  forall i e, In e (statements table i) -> entry_good container files e.
Proof.
  intros h1 h2 container c l fs table R F H i e I. apply extract_statements in H as (es & E & T). destruct (groups_ok c l R F) as (N & G & W). destruct (groups_entries _ _ _ _ _ _ _ E N G W) as (A & _ & _).
  rewrite T in I. apply filter_In in I as [I _]. rewrite Forall_forall in A. exact (A e I).
Qed.
(** The pieces of the files they name show the pixels of the sprites: every
    channel, whatever else is painted on the same sheet or written after it. *)
Theorem C75_pixels : forall h1 h2 container c l files table, reached c -> from_file l -> extract h1 h2 container c l = Some (files, table) ->
  forall i e, In e (statements table i) -> entry_shows container files e.
Proof.
  intros h1 h2 container c l fs table R F H i e I. pose proof (C75_resolved _ _ _ _ _ _ _ R F H i) as Rs. assert (J : In (e_sprite e) (graphics_of i l)).
  { apply (in_map e_sprite) in I. rewrite Rs in I. apply filter_In in I. tauto. }
  assert (K : In (RG (e_sprite e)) l). { unfold graphics_of in J. apply in_flat_map in J as (r & Ir & J). destruct r as [s|]; [|destruct J]. destruct (f_id s =? i); [|destruct J]. destruct J as [<-|[]]. exact Ir. }
  destruct (F _ K) as (B & W & Hh). destruct (entries_good _ _ _ _ _ _ _ R F H i e I) as (img & rest & D & P). destruct (decode_shape _ _ _ _ _ D B W Hh) as [L G].
  exists img, rest. split; [exact D|]. split; [unfold len; lia|]. split; [revert G; apply Forall_impl; intros row [Lr _]; unfold len; lia|].
  intros v u row p Ev Eu. rewrite Forall_forall in G. destruct (G row (nth_error_In _ _ Ev)) as [Lr _].
  assert (V : (v < List.length img)%nat) by (apply nth_error_Some; congruence). assert (U : (u < List.length row)%nat) by (apply nth_error_Some; congruence).
  specialize (P (Z.of_nat u) (Z.of_nat v) ltac:(lia) ltac:(lia)).
  assert (X : pixel_at img (Z.of_nat u) (Z.of_nat v) = p). { unfold pixel_at. rewrite !Nat2Z.id. apply (nth_error_nth _ _ []) in Ev. rewrite Ev. exact (nth_error_nth _ _ [] Eu). }
  rewrite X in P. exact P.
Qed.
(** Where the sprites of a group have the same kinds of channels, a statement
    names files of exactly the channels of its sprite. *)
Theorem C75_channels_partial : forall h1 h2 container c l files table, reached c -> from_file l -> extract h1 h2 container c l = Some (files, table) ->
  (forall s s', In (RG s) l -> In (RG s') l -> group_of c (f_id s) = group_of c (f_id s') ->
     Z.testbit (g_type (f_s s)) 2 = Z.testbit (g_type (f_s s')) 2 /\ (Z.testbit (g_type (f_s s)) 0 || Z.testbit (g_type (f_s s)) 1) = (Z.testbit (g_type (f_s s')) 0 || Z.testbit (g_type (f_s s')) 1)) ->
  forall i e, In e (statements table i) -> let t := g_type (f_s (e_sprite e)) in
  (e_mask e <> None <-> Z.testbit t 2 = true) /\ (e_colour e <> None <-> Z.testbit t 0 = true).
Proof.
  intros h1 h2 container c l fs table R F H U i e I t. pose proof (C75_resolved _ _ _ _ _ _ _ R F H i) as Rs. assert (K : just_alpha t = false).
  { apply (in_map e_sprite) in I. rewrite Rs in I. apply filter_In in I as [_ I]. fold t in I. destruct (just_alpha t); [discriminate|reflexivity]. }
  apply extract_statements in H as (es & E & T). destruct (groups_ok c l R F) as (N & G & W). destruct (groups_entries _ _ _ _ _ _ _ E N G W) as (_ & _ & A).
  rewrite T in I. apply filter_In in I as [I _]. destruct (A e I) as (g & m & Ig & Im & Em & Ec). pose proof (by_group_member _ _ _ _ Ig) as Mm.
  assert (B : forall s, In s m -> In (RG s) l /\ group_of c (f_id s) = g). { intros s J. rewrite Mm in J. apply filter_In in J as [J Q]. apply beq_ok in Q. split; [apply in_order_in, J|symmetry; exact Q]. }
  destruct (B _ Im) as [B1 B2]. assert (X : forall P : gfx -> bool, (forall s, In s m -> P s = P (e_sprite e)) -> existsb P m = P (e_sprite e)).
  { intros P Q. destruct (P (e_sprite e)) eqn:Pe; [apply existsb_exists; exists (e_sprite e); split; assumption|]. destruct (existsb P m) eqn:Ex; [|reflexivity]. apply existsb_exists in Ex as (s & Is & Ps). rewrite (Q s Is) in Ps. congruence. }
  rewrite X in Em by (intros s J; destruct (B s J) as [J1 J2]; apply (U s _ J1 B1); congruence).
  rewrite X in Ec by (intros s J; destruct (B s J) as [J1 J2]; apply (U s _ J1 B1); congruence).
  fold t in Em, Ec. unfold just_alpha in K. rewrite Em, Ec. split.
  - destruct (Z.testbit t 2); split; intros Q; congruence.
  - destruct (Z.testbit t 0), (Z.testbit t 1); cbn in *; split; intros Q; congruence.
Qed.
(** In other groups they do not: beside a sprite with colours, one with a
    palette only is taken for a transparent picture with a mask; beside a
    sprite with a palette index, one with colours only gets a mask of index
    255. *)
Theorem C75_mixed_refuted : forall h1 h2 container c l files table s, reached c -> from_file l -> extract h1 h2 container c l = Some (files, table) ->
  In (RG s) l -> forall i e, In e (statements table i) -> group_of c i = group_of c (f_id s) ->
  let t := g_type (f_s (e_sprite e)) in let w := g_width (f_s (e_sprite e)) in let h := g_height (f_s (e_sprite e)) in
  (Z.testbit t 0 = false -> Z.testbit (g_type (f_s s)) 0 = true ->
     exists path, e_colour e = Some path /\ forall u v, 0 <= u < w -> 0 <= v < h -> crop_colour files path (e_x e) (e_y e) w h u v = Some [0; 0; 0; 0]) /\
  (Z.testbit t 2 = false -> Z.testbit (g_type (f_s s)) 2 = true ->
     exists path, e_mask e = Some path /\ forall u v, 0 <= u < w -> 0 <= v < h -> crop_mask files path (e_x e) (e_y e) w h u v = Some 255).
Proof.
  intros h1 h2 container c l fs table s R F H S i e I Gr t w h. pose proof (entries_good _ _ _ _ _ _ _ R F H i e I) as (img & rest & D & P).
  apply extract_statements in H as (es & E & T). destruct (groups_ok c l R F) as (N & G & W). destruct (groups_entries _ _ _ _ _ _ _ E N G W) as (_ & _ & A).
  rewrite T in I. apply filter_In in I as [I Ei]. apply Z.eqb_eq in Ei. destruct (A e I) as (g & m & Ig & Im & Em & Ec). pose proof (by_group_member _ _ _ _ Ig) as Mm.
  assert (Sm : In s m). { rewrite Mm in Im |- *. apply filter_In in Im as [_ Q]. apply beq_ok in Q. apply filter_In. split; [apply in_order_all, S|]. apply beq_ok. rewrite <- Ei in Q. congruence. }
  split; intros T0 T1.
  - assert (X : existsb (fun s => Z.testbit (g_type (f_s s)) 0 || Z.testbit (g_type (f_s s)) 1) m = true) by (apply existsb_exists; exists s; rewrite T1; split; [exact Sm|reflexivity]).
    rewrite X in Ec. eexists. split; [exact Ec|]. intros u v U V. destruct (P u v U V) as (_ & _ & _ & P4). exact (P4 T0 _ Ec).
  - assert (X : existsb (fun s => Z.testbit (g_type (f_s s)) 2) m = true) by (apply existsb_exists; exists s; rewrite T1; split; [exact Sm|reflexivity]).
    rewrite X in Em. eexists. split; [exact Em|]. intros u v U V. destruct (P u v U V) as (_ & _ & P3 & _). exact (P3 T0 _ Em).
Qed.

(** Extraction succeeds just if every sprite (but those of alpha alone) can
    be decoded and sprites of one hash take the same number of bytes in the
    file ... *)
Theorem C75_total : forall h1 h2 container c l, from_file l ->
  (exists r, extract h1 h2 container c l = Some r) <->
  (forall s, In (RG s) l -> just_alpha (g_type (f_s s)) = false -> exists r, decode_sprite (f_s s) container (f_pos s) = Some r) /\
  (forall s s' d d' n n', In (RG s) l -> In (RG s') l -> just_alpha (g_type (f_s s)) = false -> just_alpha (g_type (f_s s')) = false -> stored_as s d n -> stored_as s' d' n' ->
     h2 (h1 d) (g_xofs (f_s s)) (g_yofs (f_s s)) = h2 (h1 d') (g_xofs (f_s s')) (g_yofs (f_s s')) -> n = n').
Proof.
  intros h1 h2 container c l F. set (gs := by_group c (in_order (real_sprites l))). set (p := mk_paint [] [] [] (fun _ _ => 0) (fun _ _ => [])).
  assert (E1 : (exists r, extract h1 h2 container c l = Some r) <-> (exists r, extract_groups h1 h2 container gs p = Some r)).
  { unfold extract. fold gs. fold p. destruct (extract_groups h1 h2 container gs p) as [[fs es]|]; cbn [bind]; split; intros [r E]; try discriminate E; eexists; reflexivity. }
  assert (M : forall g m s, In (g, m) gs -> In s m -> In (RG s) l). { intros g m s I J. apply by_group_member in I. subst m. apply filter_In in J as [J _]. apply in_order_in, J. }
  assert (S : Forall (fun gm => Forall sized (snd gm)) gs). { apply Forall_forall. intros [g m] I. apply Forall_forall. intros s J. destruct (F s (M g m s I J)) as (_ & A & B). split; assumption. }
  assert (Q : forall s, In s (flat_map (fun gm => filter kept (snd gm)) gs) <-> In (RG s) l /\ just_alpha (g_type (f_s s)) = false).
  { intros s. split.
    - intros I. apply in_flat_map in I as ([g m] & I & J). apply filter_In in J as [J K]. split; [apply (M g m s I J)|]. unfold kept in K. rewrite alpha_bits in K. destruct (just_alpha _); [discriminate|reflexivity].
    - intros [I K]. assert (J : In s (filter kept (graphics_of (f_id s) l))).
      { apply filter_In. split; [|unfold kept; rewrite alpha_bits, K; reflexivity]. unfold graphics_of. apply in_flat_map. exists (RG s). split; [exact I|]. rewrite Z.eqb_refl. now left. }
      rewrite <- (kept_ids c) in J. apply filter_In in J. tauto. }
  rewrite E1, (extract_groups_sizes h1 h2 container gs p S). change (p_size p) with (@nil (Z * Z)). rewrite run_sizes_iff.
  assert (X : forall s e, enc_of h1 h2 container s = Some e -> exists d n, stored_as s d n /\ e = (h2 (h1 d) (g_xofs (f_s s)) (g_yofs (f_s s)), n + 18)).
  { intros s e H. unfold enc_of in H. apply bind_some in H as ([d r0] & D & H). apply bind_some in H as ([img rest] & De & H). apply some_inj in H. subst e. destruct (decode_sprite_data _ _ _ _ _ De) as (d' & D').
    rewrite D in D'. apply some_inj in D'. apply pair_inj in D' as [_ ->]. exists d, (len (f_pos s) - len rest). split; [exists rest; split; [exact D|reflexivity]|reflexivity]. }
  assert (Y : forall s d n, stored_as s d n -> (exists r, decode_sprite (f_s s) container (f_pos s) = Some r) -> enc_of h1 h2 container s = Some (h2 (h1 d) (g_xofs (f_s s)) (g_yofs (f_s s)), n + 18)).
  { intros s d n (rest & D & ->) [[img r1] De]. unfold enc_of. rewrite D. cbn [bind]. destruct (decode_sprite_data _ _ _ _ _ De) as (d' & D'). rewrite D in D'. apply some_inj in D'. apply pair_inj in D' as [_ ->]. rewrite De. reflexivity. }
  split.
  - intros (A & _ & C). assert (A' : forall s, In (RG s) l -> just_alpha (g_type (f_s s)) = false -> exists r, decode_sprite (f_s s) container (f_pos s) = Some r).
    { intros s I K. destruct (A s (proj2 (Q s) (conj I K))) as [e He]. unfold enc_of in He. apply bind_some in He as (? & _ & He). destruct x as [d r0]. apply bind_some in He as (r & He & _). exists r. exact He. }
    split; [exact A'|]. intros s s' d d' n n' I I' K K' D D' Eq. specialize (C s s' _ _ (proj2 (Q s) (conj I K)) (proj2 (Q s') (conj I' K')) (Y s d n D (A' s I K)) (Y s' d' n' D' (A' s' I' K')) Eq). cbn [snd] in C. lia.
  - intros (A & C). split; [|split].
    + intros s I. apply Q in I as [I K]. destruct (A s I K) as [[img rest] De]. destruct (decode_sprite_data _ _ _ _ _ De) as (d & D). eexists. apply (Y s d (len (f_pos s) - len rest)); [exists rest; split; [exact D|reflexivity]|exists (img, rest); exact De].
    + intros s e n _ _ E. discriminate E.
    + intros s s' e e' I I' E E' Eq. apply Q in I as [I K]. apply Q in I' as [I' K']. destruct (X s e E) as (d & n & D & ->). destruct (X s' e' E') as (d' & n' & D' & ->). cbn [fst snd] in *. f_equal. exact (C s s' d d' n n' I I' K K' D D' Eq).
Qed.
(** ... so a file with two sprites of the same pixels and offsets that were
    compressed differently cannot be decompiled at all. *)
Theorem C75_encodings_refuted : forall h1 h2 container c l s s' d n n', from_file l -> In (RG s) l -> In (RG s') l ->
  just_alpha (g_type (f_s s)) = false -> just_alpha (g_type (f_s s')) = false -> stored_as s d n -> stored_as s' d n' ->
  g_xofs (f_s s) = g_xofs (f_s s') -> g_yofs (f_s s) = g_yofs (f_s s') -> n <> n' -> extract h1 h2 container c l = None.
Proof.
  intros h1 h2 container c l s s' d n n' F I I' K K' D D' X Y N. destruct (extract h1 h2 container c l) as [r|] eqn:E; [|reflexivity]. exfalso. apply N.
  destruct (proj1 (C75_total h1 h2 container c l F) (ex_intro _ r E)) as [_ C]. apply (C s s' d d n n' I I' K K' D D'). rewrite X, Y. reflexivity.
Qed.

(** A sprite of two palette pixels, one of a red, green and blue pixel, and
    one of alpha alone; the first number has two sprites. *)
Definition ex_pal (i xofs : Z) : gfx := mk_gfx i [2; 7; 9; 66] (mk_gsprite 2 2 1 4 0 xofs 0).
Definition ex_rgb (i : Z) : gfx := mk_gfx i [3; 10; 20; 30] (mk_gsprite 3 1 1 1 0 0 0).
Definition ex_alpha (i : Z) : gfx := mk_gfx i [1; 10] (mk_gsprite 1 1 1 2 0 0 0).
Definition ex_reals : list real := [RG (ex_pal 1 0); ROther 5; RG (ex_rgb 2); RG (ex_alpha 1); RG (ex_pal 1 (-3))].
Lemma new_reached : reached new_ctx.
Proof. exists [], [], new_ctx. split; reflexivity. Qed.
Lemma ex_from_file : from_file ex_reals.
Proof. intros s I. cbn in I. destruct I as [E|[E|[E|[E|[E|[]]]]]]; try discriminate E; injection E as <-; (split; [cbn [f_pos ex_pal ex_rgb ex_alpha]; repeat (apply Forall_cons; [lia|]); apply Forall_nil|cbn; lia]). Qed.
Example C75_example : match extract (fun d => len d) (fun a b c => 100 * a + 10 * b + c) 2 new_ctx ex_reals with
  | Some (files, table) =>
      map fst files = [txt "resources/misc.png"; txt "resources/misc_32bpp.png"] /\
      map (fun e => (e_sprite e, e_x e, e_y e)) (statements table 1) = [(ex_pal 1 0, 5, 5); (ex_pal 1 (-3), 17, 5)] /\
      map (fun e => (e_sprite e, e_x e, e_y e)) (statements table 2) = [(ex_rgb 2, 29, 5)] /\
      crop_mask files (txt "resources/misc.png") 17 5 2 1 1 0 = Some 9 /\
      crop_colour files (txt "resources/misc_32bpp.png") 29 5 1 1 0 0 = Some [10; 20; 30; 255] /\
      crop_colour files (txt "resources/misc_32bpp.png") 5 5 2 1 0 0 = Some [0; 0; 0; 0]
  | None => False
  end.
Proof. vm_compute. repeat split; reflexivity. Qed.
Example C75_encodings_example : let a := mk_gfx 1 [4; 7; 7; 7; 7] (mk_gsprite 4 4 1 4 0 0 0) in
  let b := mk_gfx 2 [2; 7; 7; 256 - 8 * 2; 2] (mk_gsprite 4 4 1 4 0 0 0) in let b' := mk_gfx 2 [1; 7; 1; 7; 1; 7; 1; 7] (mk_gsprite 4 4 1 4 0 0 0) in
  stored_as a [7; 7; 7; 7] 5 /\ stored_as b [7; 7; 7; 7] 5 /\ stored_as b' [7; 7; 7; 7] 8 /\ extract (fun d => 0) (fun a b c => 0) 2 new_ctx [RG a; RG b'] = None.
Proof. cbn zeta. split; [exists []; split; reflexivity|]. split; [exists []; split; reflexivity|]. split; [exists []; split; reflexivity|]. reflexivity. Qed.

Print Assumptions C75_resolved.
Print Assumptions C75_pixels.
Print Assumptions C75_channels_partial.
Print Assumptions C75_mixed_refuted.
Print Assumptions C75_total.
Print Assumptions C75_encodings_refuted.
