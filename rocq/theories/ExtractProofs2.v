(** Proofs about ExtractModel: groups, files, entries. *)
From Coq Require Import ZArith List Bool String Lia Permutation.
From Verif Require Import Base BaseFacts RecordsModel RecordsProofs DecodeModel DecodeProofs SheetProofs AnnounceModel AnnounceProofs SpecDecode SpecAnnounce CommonModel CommonProofs ExtractModel SpecExtract PyValue PropsDecode ExtractProofs.
Import ListNotations.
Open Scope string_scope.
Open Scope list_scope.
Open Scope Z_scope.

Definition in_place (members : list gfx) (pl : nat * (Z * Z)) (u v : Z) : Prop :=
  exists s, nth_error members (fst pl) = Some s /\ box s (fst (snd pl)) (snd (snd pl)) u v.
Lemma paint_all_outside h1 h2 container members : forall places p l p', paint_all h1 h2 container members places p = Some (l, p') -> forall u v,
  Forall (fun pl => ~ in_place members pl u v) places -> p_mask p' u v = p_mask p u v /\ p_colour p' u v = p_colour p u v.
Proof.
  induction places as [|[i [x y]] r IH]; intros p l p' H u v F; cbn [paint_all] in H; [apply some_inj in H; apply pair_inj in H as [_ <-]; split; reflexivity|].
  apply bind_some in H as (s & S & H). apply bind_some in H as (p1 & P & H). apply bind_some in H as ([l1 p2] & E & H). apply some_inj in H. apply pair_inj in H as [_ <-].
  inversion F as [|? ? N F']; subst. destruct (IH _ _ _ E u v F') as [-> ->]. apply (paint_outside _ _ _ _ _ _ _ _ P). intros B. apply N. exists s. split; assumption.
Qed.
(** [s] is shown at (x, y) of the two images. *)
Definition shown (container : Z) (s : gfx) (x y : Z) (p : paint) : Prop :=
  exists img rest, decode_sprite (f_s s) container (f_pos s) = Some (img, rest) /\
  forall u v, 0 <= u < g_width (f_s s) -> 0 <= v < g_height (f_s s) ->
    (forall m, mask_of (g_type (f_s s)) (pixel_at img u v) = Some m -> p_mask p (x + u) (y + v) = m) /\
    (forall k, colour_of (g_type (f_s s)) (pixel_at img u v) = Some k -> p_colour p (x + u) (y + v) = k) /\
    (Z.testbit (g_type (f_s s)) 2 = false -> p_mask p (x + u) (y + v) = 255) /\
    (Z.testbit (g_type (f_s s)) 0 = false -> p_colour p (x + u) (y + v) = [0; 0; 0; 0]).
Lemma paint_all_shown h1 h2 container members : Forall (fun s => isb (f_pos s)) members -> forall places p l p', paint_all h1 h2 container members places p = Some (l, p') ->
  ForallOrdPairs (fun a b => forall u v, in_place members a u v -> ~ in_place members b u v) places ->
  Forall (fun pl => forall s, nth_error members (fst pl) = Some s -> alpha_only s = false) places ->
  Forall (fun pl => forall u v, in_place members pl u v -> p_mask p u v = 255 /\ p_colour p u v = [0; 0; 0; 0]) places ->
  Forall2 (fun pl e => nth_error members (fst pl) = Some (fst (fst e)) /\ snd pl = (snd (fst e), snd e)) places l /\
  Forall (fun e => shown container (fst (fst e)) (snd (fst e)) (snd e) p') l.
Proof.
  intros B. induction places as [|[i [x y]] r IH]; intros p l p' H D A Ini; cbn [paint_all] in H; [apply some_inj in H; apply pair_inj in H as [<- <-]; split; constructor|].
  apply bind_some in H as (s & S & H). apply bind_some in H as (p1 & P & H). apply bind_some in H as ([l1 p2] & E & H). apply some_inj in H. apply pair_inj in H as [<- <-].
  inversion D as [|? ? D1 D2]; subst. inversion A as [|? ? A1 A2]; subst. inversion Ini as [|? ? Ini1 Ini2]; subst.
  assert (Ini3 : Forall (fun pl => forall u v, in_place members pl u v -> p_mask p1 u v = 255 /\ p_colour p1 u v = [0; 0; 0; 0]) r).
  { rewrite Forall_forall in D1, Ini2 |- *. intros pl I u v J. destruct (paint_outside _ _ _ _ _ _ _ _ P u v) as [-> ->]; [|apply (Ini2 pl I u v J)]. intros Bx. apply (D1 pl I u v); [exists s; split; assumption|exact J]. }
  destruct (IH _ _ _ E D2 A2 Ini3) as [F G]. split.
  - constructor; [split; [exact S|reflexivity]|exact F].
  - constructor; [|exact G]. cbn [fst snd]. assert (Bs : isb (f_pos s)) by (rewrite Forall_forall in B; apply B, (nth_error_In _ _ S)).
    destruct (paint_inside _ _ _ _ _ _ _ _ P Bs (A1 s S)) as (img & rest & De & Q). exists img, rest. split; [exact De|]. intros u v U V.
    assert (O : p_mask p2 (x + u) (y + v) = p_mask p1 (x + u) (y + v) /\ p_colour p2 (x + u) (y + v) = p_colour p1 (x + u) (y + v)).
    { apply (paint_all_outside _ _ _ _ _ _ _ _ E). revert D1. apply Forall_impl. intros pl X. apply X. exists s. split; [exact S|]. unfold box, in_cell. cbn [fst snd]. lia. }
    destruct O as [-> ->]. destruct (Q u v U V) as (Q1 & Q2 & Q3 & Q4). destruct (Ini1 (x + u) (y + v)) as [I1 I2]; [exists s; split; [exact S|]; unfold box, in_cell; cbn [fst snd]; lia|].
    rewrite <- I1, <- I2. split; [exact Q1|]. split; [exact Q2|]. split; assumption.
Qed.
(** The places of a group. *)
Lemma seq_filter_pairs {A} (R : A -> A -> Prop) (l : list A) (f : A -> nat) : NoDup (map f l) -> (forall a b, In a l -> In b l -> f a <> f b -> R a b) -> ForallOrdPairs R l.
Proof.
  induction l as [|a l IH]; intros N H; constructor.
  - apply Forall_forall. intros b I. apply H; [now left|now right|]. inversion N as [|? ? X _]; subst. intros E. apply X. rewrite E. apply in_map, I.
  - inversion N as [|? ? _ X]; subst. apply IH; [exact X|]. intros; apply H; try (right; assumption). assumption.
Qed.
Definition sized (s : gfx) : Prop := 0 <= g_width (f_s s) /\ 0 <= g_height (f_s s).
Definition kept (s : gfx) : bool := negb (alpha_only s).
Lemma places_spec members : Forall sized members -> let '(W, H, _) := sheet_size (map size_of members) in
  map fst (places_of members) = filter (fun i => match nth_error members i with Some s => kept s | None => true end) (seq 0 (List.length members)) /\
  ForallOrdPairs (fun a b => forall u v, in_place members a u v -> ~ in_place members b u v) (places_of members) /\
  Forall (fun pl => forall s, nth_error members (fst pl) = Some s -> alpha_only s = false) (places_of members) /\
  Forall (fun pl => forall s, nth_error members (fst pl) = Some s -> inside W H (fst (snd pl)) (snd (snd pl)) (g_width (f_s s)) (g_height (f_s s)) = true) (places_of members).
Proof.
  intros F. assert (F' : Forall (fun s : Z * Z => 0 <= fst s /\ 0 <= snd s) (map size_of members)) by (apply Forall_map; revert F; apply Forall_impl; intros s X; exact X).
  pose proof (C56_sheet (fun i => match nth_error members i with Some s => alpha_only s | None => false end) _ F') as X. destruct (sheet_size (map size_of members)) as [[W H] lo]. cbv zeta in X.
  fold (places_of members) in X. destruct X as (X1 & X2 & X3). rewrite map_length in X1.
  assert (M : forall j s, nth_error members j = Some s -> nth_error (map size_of members) j = Some (g_width (f_s s), g_height (f_s s))) by (intros j s E; rewrite nth_error_map, E; reflexivity).
  split; [|split; [|split]].
  - rewrite X1. apply filter_ext. intros i. unfold kept. destruct (nth_error members i); reflexivity.
  - apply (seq_filter_pairs _ _ fst); [rewrite X1; apply NoDup_filter, seq_NoDup|]. intros [j [x y]] [j' [x' y']] I I' N u v (s & S & B) (s' & S' & B'). cbn [fst snd] in *.
    unfold box, in_cell in B, B'. apply (X3 _ _ _ _ _ _ _ _ _ _ I (M _ _ S) I' (M _ _ S') N u v); lia.
  - apply Forall_forall. intros [j [x y]] I s S. cbn [fst] in S. apply (in_map fst) in I. rewrite X1 in I. apply filter_In in I as [_ I]. cbn [fst] in I. rewrite S in I. destruct (alpha_only s); [discriminate|reflexivity].
  - apply Forall_forall. intros [j [x y]] I s S. cbn [fst snd] in *. destruct (X2 _ _ _ _ _ I (M _ _ S)) as (A1 & A2 & A3 & A4). unfold inside. rewrite !andb_true_iff, !Z.leb_le. lia.
Qed.
Lemma nth_filter {A} (f : A -> bool) (members : list A) : forall l k, (forall i, nth_error l i = nth_error members (k + i)) ->
  flat_map (fun i => match nth_error members i with Some s => [s] | None => [] end) (filter (fun i => match nth_error members i with Some s => f s | None => true end) (seq k (List.length l))) = filter f l.
Proof.
  induction l as [|a l IH]; intros k H; [reflexivity|]. cbn [List.length seq filter]. pose proof (H 0%nat) as H0. rewrite Nat.add_0_r in H0. cbn [nth_error] in H0. rewrite <- H0.
  assert (T : forall i, nth_error l i = nth_error members (S k + i)) by (intros i; specialize (H (S i)); cbn [nth_error] in H; rewrite H; f_equal; lia).
  destruct (f a); [cbn [flat_map]; rewrite <- H0; cbn [app]; f_equal|]; apply IH, T.
Qed.
Lemma F2_sprites members : forall (places : list (nat * (Z * Z))) (l : list (gfx * Z * Z)), Forall2 (fun pl e => nth_error members (fst pl) = Some (fst (fst e)) /\ snd pl = (snd (fst e), snd e)) places l ->
  map (fun e => fst (fst e)) l = flat_map (fun i => match nth_error members i with Some s => [s] | None => [] end) (map fst places).
Proof. induction 1 as [|pl e places l [A _] _ IH]; [reflexivity|]. cbn [map flat_map]. rewrite A, IH. reflexivity. Qed.
Lemma extract_group_spec h1 h2 container g members p fs es p' : extract_group h1 h2 container g members p = Some (fs, es, p') ->
  Forall (fun s => isb (f_pos s)) members -> Forall sized members ->
  let masks := existsb (fun s => Z.testbit (g_type (f_s s)) 2) members in
  let colours := existsb (fun s => Z.testbit (g_type (f_s s)) 0 || Z.testbit (g_type (f_s s)) 1) members in
  let mpath := if masks then Some (RESOURCES ++ mask_file g) else None in
  let cpath := if colours then Some (RESOURCES ++ rgba_file g) else None in
  map e_sprite es = filter kept members /\
  Forall (fun e => e_mask e = mpath /\ e_colour e = cpath) es /\
  exists W H, fs = (match mpath with Some f => [(f, FMask W H (p_mask p'))] | None => [] end) ++ (match cpath with Some f => [(f, FColour W H (p_colour p'))] | None => [] end) /\
  Forall (fun e => shown container (e_sprite e) (e_x e) (e_y e) p' /\ inside W H (e_x e) (e_y e) (g_width (f_s (e_sprite e))) (g_height (f_s (e_sprite e))) = true) es.
Proof.
  intros E B SZ masks colours. unfold extract_group in E. pose proof (places_spec members SZ) as P. destruct (sheet_size (map size_of members)) as [[W H] lo]. cbv zeta in E.
  apply bind_some in E as ([l q] & A & E). apply some_inj in E. apply pair_inj in E as [E <-]. apply pair_inj in E as [E1 E2]. destruct P as (P1 & P2 & P3 & P4).
  assert (M : existsb (fun s => 0 <? Z.land (g_type (f_s s)) 4) members = masks) by (unfold masks; clear; induction members as [|s l IH]; cbn [existsb]; [reflexivity|]; rewrite masked_bit, IH; reflexivity).
  assert (C : existsb (fun s => 0 <? Z.land (g_type (f_s s)) 3) members = colours) by (unfold colours; clear; induction members as [|s l IH]; cbn [existsb]; [reflexivity|]; rewrite coloured_bits, IH; reflexivity).
  rewrite M, C in E1, E2. destruct (paint_all_shown _ _ _ _ B _ _ _ _ A P2 P3) as [F G]; [apply Forall_forall; intros; split; reflexivity|]. cbv zeta.
  assert (N : map e_sprite es = filter kept members).
  { subst es. rewrite map_map. unfold e_sprite. cbn [fst]. rewrite (F2_sprites _ _ _ F), P1. apply nth_filter. intros i. reflexivity. }
  split; [exact N|]. split; [subst es; apply Forall_map, Forall_forall; intros; split; reflexivity|].
  exists W, H. split; [symmetry; exact E1|]. subst es. apply Forall_map.
  assert (I : Forall (fun e => inside W H (snd (fst e)) (snd e) (g_width (f_s (fst (fst e)))) (g_height (f_s (fst (fst e)))) = true) l).
  { clear - F P4. induction F as [|pl e places l [A1 A2] _ IH]; constructor; inversion P4 as [|? ? X Y]; subst; [|apply IH, Y]. specialize (X _ A1). rewrite A2 in X. exact X. }
  rewrite Forall_forall in G, I |- *. intros e Ie. unfold e_sprite, e_x, e_y. cbn [fst snd]. split; [apply G, Ie|apply I, Ie].
Qed.

(** ** All groups *)
Lemma extract_groups_parts h1 h2 container : forall gs p fs es, extract_groups h1 h2 container gs p = Some (fs, es) ->
  exists parts : list (list (bytes * file) * list entry), Forall2 (fun gm part => exists p1 p2, extract_group h1 h2 container (fst gm) (snd gm) p1 = Some (fst part, snd part, p2)) gs parts /\
    fs = flat_map fst parts /\ es = flat_map snd parts.
Proof.
  induction gs as [|[g m] gs IH]; intros p fs es H; cbn [extract_groups] in H.
  - apply some_inj in H. apply pair_inj in H as [<- <-]. exists []. split; [constructor|split; reflexivity].
  - apply bind_some in H as ([[f1 e1] p1] & E & H). apply bind_some in H as ([f2 e2] & E2 & H). apply some_inj in H. apply pair_inj in H as [<- <-].
    destruct (IH _ _ _ E2) as (parts & F & -> & ->). exists ((f1, e1) :: parts). split; [|split; reflexivity]. constructor; [exists p, p1; exact E|exact F].
Qed.
Lemma stored_app path a b : stored path (a ++ b) = match stored path b with Some f => Some f | None => stored path a end.
Proof.
  induction a as [|[q f] a IH]; cbn [app stored]; [destruct (stored path b); reflexivity|]. rewrite IH. destruct (stored path b); reflexivity.
Qed.
Lemma stored_none path l : ~ In path (map fst l) -> stored path l = None.
Proof.
  induction l as [|[q f] l IH]; intros N; [reflexivity|]. cbn [stored]. rewrite IH by (intros I; apply N; now right). destruct (list_eq_dec Z.eq_dec q path) as [->|]; [exfalso; apply N; now left|reflexivity].
Qed.
(** Files of groups have different names. *)
Definition file_names (g : bytes) : list bytes := [RESOURCES ++ mask_file g; RESOURCES ++ rgba_file g].
Definition good_groups (l : list bytes) : Prop := forall g g' f, In g l -> In g' l -> In f (file_names g) -> In f (file_names g') -> g = g'.
Lemma part_names h1 h2 container g m p fs es p' f : extract_group h1 h2 container g m p = Some (fs, es, p') -> In f (map fst fs) -> In f (file_names g).
Proof.
  unfold extract_group. destruct (sheet_size _) as [[W H] lo]. intros E I. cbv zeta in E. apply bind_some in E as ([l q] & A & E). apply some_inj in E. apply pair_inj in E as [E _]. apply pair_inj in E as [<- _].
  rewrite map_app, in_app_iff in I. unfold file_names. destruct (existsb _ m), (existsb _ m); cbn in I |- *; tauto.
Qed.
Lemma stored_part h1 h2 container : forall gs parts, Forall2 (fun (gm : bytes * list gfx) (part : list (bytes * file) * list entry) => exists p1 p2, extract_group h1 h2 container (fst gm) (snd gm) p1 = Some (fst part, snd part, p2)) gs parts ->
  NoDup (map fst gs) -> good_groups (map fst gs) ->
  Forall2 (fun (gm : bytes * list gfx) (part : list (bytes * file) * list entry) => forall f, In f (map fst (fst part)) -> stored f (flat_map fst parts) = stored f (fst part)) gs parts.
Proof.
  intros gs parts F. induction F as [|[g m] part gs parts E F IH]; intros N G; [constructor|]. cbn [map fst] in N. inversion N as [|? ? N1 N2]; subst.
  assert (G' : good_groups (map fst gs)) by (intros a b f Ia Ib; apply G; right; assumption). specialize (IH N2 G').
  assert (O : forall f gm' part', In gm' gs -> (exists p1 p2, extract_group h1 h2 container (fst gm') (snd gm') p1 = Some (fst part', snd part', p2)) -> In f (map fst (fst part)) -> ~ In f (map fst (fst part'))).
  { intros f gm' part' I (q1 & q2 & E') I1 I2. destruct E as (p1 & p2 & E). cbn [fst snd] in E. pose proof (part_names _ _ _ _ _ _ _ _ _ _ E I1) as A. pose proof (part_names _ _ _ _ _ _ _ _ _ _ E' I2) as B.
    assert (fst gm' = g) by (apply (G (fst gm') g f); [right; apply in_map, I|now left|exact B|exact A]). apply N1. subst g. apply in_map, I. }
  constructor.
  - intros f I. cbn [flat_map]. rewrite stored_app, stored_none; [reflexivity|]. clear IH. intros J. assert (exists gm' part', In gm' gs /\ (exists p1 p2, extract_group h1 h2 container (fst gm') (snd gm') p1 = Some (fst part', snd part', p2)) /\ In f (map fst (fst part'))) as (gm' & part' & X1 & X2 & X3).
    { clear - F J. induction F as [|gm' part' gs parts E' F IH]; [destruct J|]. cbn [flat_map] in J. rewrite map_app, in_app_iff in J. destruct J as [J|J]; [exists gm', part'; split; [now left|split; assumption]|].
      destruct (IH J) as (a & b & X & Y & Z). exists a, b. split; [now right|split; assumption]. }
    exact (O f gm' part' X1 X2 I X3).
  - assert (O2 : forall f, In f (map fst (fst part)) -> Forall (fun part' => ~ In f (map fst (fst part'))) parts).
    { intros f I. clear - O F I. induction F as [|gm' part' gs parts E' F IH]; constructor; [apply (O f gm' part'); [now left|exact E'|exact I]|]. apply IH. intros f' gm'' part'' I'. apply O. now right. }
    clear - IH O2. cbn [flat_map]. remember (flat_map fst parts) as all eqn:Q. clear Q. induction IH as [|gm' part' gs parts X Y IH]; constructor.
    + intros f I. rewrite stored_app, (X f I). destruct (stored f (fst part')) eqn:T; [reflexivity|]. apply stored_none. intros I1. specialize (O2 f I1). inversion O2 as [|? ? O3 _]; subst. exact (O3 I).
    + apply IH. intros f I. specialize (O2 f I). now inversion O2.
Qed.
(** What an entry shows. *)
Definition entry_good (container : Z) (fs : list (bytes * file)) (e : entry) : Prop :=
  let s := f_s (e_sprite e) in
  exists img rest, decode_sprite s container (f_pos (e_sprite e)) = Some (img, rest) /\
  forall u v, 0 <= u < g_width s -> 0 <= v < g_height s ->
    (forall m, mask_of (g_type s) (pixel_at img u v) = Some m ->
       exists path, e_mask e = Some path /\ crop_mask fs path (e_x e) (e_y e) (g_width s) (g_height s) u v = Some m) /\
    (forall k, colour_of (g_type s) (pixel_at img u v) = Some k ->
       exists path, e_colour e = Some path /\ crop_colour fs path (e_x e) (e_y e) (g_width s) (g_height s) u v = Some k) /\
    (Z.testbit (g_type s) 2 = false -> forall path, e_mask e = Some path ->
       crop_mask fs path (e_x e) (e_y e) (g_width s) (g_height s) u v = Some 255) /\
    (Z.testbit (g_type s) 0 = false -> forall path, e_colour e = Some path ->
       crop_colour fs path (e_x e) (e_y e) (g_width s) (g_height s) u v = Some [0; 0; 0; 0]).
Lemma mask_not_rgba a b : mask_file a = rgba_file b -> a = b ++ txt "_32bpp".
Proof.
  unfold mask_file, rgba_file. change (txt "_32bpp.png") with (txt "_32bpp" ++ txt ".png"). rewrite app_assoc. apply app_inv_tail.
Qed.
Lemma stored_single f x : stored f [(f, x)] = Some x.
Proof. cbn [stored]. destruct (list_eq_dec Z.eq_dec f f) as [_|N]; [reflexivity|destruct (N eq_refl)]. Qed.
Lemma group_entries h1 h2 container g m p fs es p' : extract_group h1 h2 container g m p = Some (fs, es, p') -> Forall (fun s => isb (f_pos s)) m -> Forall sized m ->
  forall all, (forall f, In f (map fst fs) -> stored f all = stored f fs) -> Forall (entry_good container all) es.
Proof.
  intros E B S all ST. destruct (extract_group_spec _ _ _ _ _ _ _ _ _ E B S) as (N & F & W & H & FS & G). cbv zeta in *.
  set (masks := existsb (fun s => Z.testbit (g_type (f_s s)) 2) m) in *. set (colours := existsb (fun s => Z.testbit (g_type (f_s s)) 0 || Z.testbit (g_type (f_s s)) 1) m) in *.
  assert (I : forall e, In e es -> In (e_sprite e) m).
  { intros e Ie. apply (in_map e_sprite) in Ie. rewrite N in Ie. apply filter_In in Ie. tauto. }
  rewrite Forall_forall in F, G |- *. intros e Ie. destruct (F e Ie) as [Fm Fc]. destruct (G e Ie) as [(img & rest & D & Sh) In_]. pose proof (I e Ie) as Im.
  unfold entry_good. cbv zeta. exists img, rest. split; [exact D|]. intros u v U V. destruct (Sh u v U V) as (Sm & Sc & Xm & Xc). split; [|split; [|split]].
  - intros k K. assert (M : masks = true). { unfold masks. apply existsb_exists. exists (e_sprite e). split; [exact Im|]. unfold mask_of in K. destruct (Z.testbit _ 2); [reflexivity|discriminate]. }
    rewrite M in *. exists (RESOURCES ++ mask_file g). split; [exact Fm|]. unfold crop_mask.
    assert (X : stored (RESOURCES ++ mask_file g) all = Some (FMask W H (p_mask p'))).
    { rewrite ST by (rewrite FS; left; reflexivity). rewrite FS. rewrite stored_app. destruct colours; [|apply stored_single]. cbn [stored].
      destruct (list_eq_dec Z.eq_dec (RESOURCES ++ rgba_file g) (RESOURCES ++ mask_file g)) as [Q|]; [|apply stored_single].
      apply app_inv_head in Q. symmetry in Q. apply mask_not_rgba in Q. apply (f_equal (@List.length Z)) in Q. rewrite app_length in Q. cbn in Q. lia. }
    rewrite X, In_. rewrite (Sm k K). reflexivity.
  - intros k K. assert (M : colours = true). { unfold colours. apply existsb_exists. exists (e_sprite e). split; [exact Im|]. unfold colour_of in K. destruct (Z.testbit _ 0); [reflexivity|discriminate]. }
    rewrite M in *. exists (RESOURCES ++ rgba_file g). split; [exact Fc|]. unfold crop_colour.
    assert (X : stored (RESOURCES ++ rgba_file g) all = Some (FColour W H (p_colour p'))).
    { rewrite ST by (rewrite FS, map_app; apply in_or_app; right; left; reflexivity). rewrite FS, stored_app, stored_single. reflexivity. }
    rewrite X, In_. rewrite (Sc k K). reflexivity.
  - intros T path Ep. rewrite Fm in Ep. destruct masks; [|discriminate]. apply some_inj in Ep. subst path. unfold crop_mask.
    assert (X : stored (RESOURCES ++ mask_file g) all = Some (FMask W H (p_mask p'))).
    { rewrite ST by (rewrite FS; left; reflexivity). rewrite FS. rewrite stored_app. destruct colours; [|apply stored_single]. cbn [stored].
      destruct (list_eq_dec Z.eq_dec (RESOURCES ++ rgba_file g) (RESOURCES ++ mask_file g)) as [Q|]; [|apply stored_single].
      apply app_inv_head in Q. symmetry in Q. apply mask_not_rgba in Q. apply (f_equal (@List.length Z)) in Q. rewrite app_length in Q. cbn in Q. lia. }
    rewrite X, In_. rewrite (Xm T). reflexivity.
  - intros T path Ep. rewrite Fc in Ep. destruct colours; [|discriminate]. apply some_inj in Ep. subst path. unfold crop_colour.
    assert (X : stored (RESOURCES ++ rgba_file g) all = Some (FColour W H (p_colour p'))).
    { rewrite ST by (rewrite FS, map_app; apply in_or_app; right; left; reflexivity). rewrite FS, stored_app, stored_single. reflexivity. }
    rewrite X, In_. rewrite (Xc T). reflexivity.
Qed.
Lemma groups_entries h1 h2 container gs p fs es : extract_groups h1 h2 container gs p = Some (fs, es) -> NoDup (map fst gs) -> good_groups (map fst gs) ->
  (forall g m, In (g, m) gs -> Forall (fun s => isb (f_pos s)) m /\ Forall sized m) ->
  Forall (entry_good container fs) es /\ map e_sprite es = flat_map (fun gm => filter kept (snd gm)) gs /\
  (forall e, In e es -> exists g m, In (g, m) gs /\ In (e_sprite e) m /\
     e_mask e = (if existsb (fun s => Z.testbit (g_type (f_s s)) 2) m then Some (RESOURCES ++ mask_file g) else None) /\
     e_colour e = (if existsb (fun s => Z.testbit (g_type (f_s s)) 0 || Z.testbit (g_type (f_s s)) 1) m then Some (RESOURCES ++ rgba_file g) else None)).
Proof.
  intros E N G W. apply extract_groups_parts in E as (parts & F & -> & ->). pose proof (stored_part _ _ _ _ _ F N G) as ST. remember (flat_map fst parts) as all eqn:Q. clear Q N G.
  induction F as [|[g m] part gs parts (p1 & p2 & E) F IH]; [split; [constructor|split; [reflexivity|intros e []]]|]. inversion ST as [|? ? ? ? S1 S2]; subst. cbn [fst snd] in E.
  destruct (W g m (or_introl eq_refl)) as [B Sz]. destruct (IH (fun g' m' I => W g' m' (or_intror I)) S2) as (I1 & I2 & I3).
  destruct (extract_group_spec _ _ _ _ _ _ _ _ _ E B Sz) as (N1 & N2 & _). cbv zeta in N2. cbn [flat_map]. split; [|split].
  - apply Forall_app. split; [|exact I1]. exact (group_entries _ _ _ _ _ _ _ _ _ E B Sz _ S1).
  - rewrite map_app. cbn [snd]. rewrite N1, I2. reflexivity.
  - intros e Ie. apply in_app_iff in Ie as [Ie|Ie].
    + exists g, m. split; [now left|]. split; [|rewrite Forall_forall in N2; exact (N2 e Ie)]. apply (in_map e_sprite) in Ie. rewrite N1 in Ie. apply filter_In in Ie. tauto.
    + destruct (I3 e Ie) as (g' & m' & X & Y). exists g', m'. split; [now right|exact Y].
Qed.
