(** C74: every sprite of a decompiled grf belongs to the group of the action
    that announced it. *)
From Coq Require Import ZArith List Bool Lia String.
From Verif Require Import Base BaseFacts CommonModel RecordsModel DecodeModel PyValue AnnounceModel SpecAnnounce AnnounceProofs.
Import ListNotations.
Open Scope string_scope.
Open Scope list_scope.
Open Scope Z_scope.

(** Whatever comes before: an action that announces [n] sprites, followed by
    references to at most [n] and by any other actions that announce nothing,
    is the one whose group, name_number, these sprites are in; the number is
    that of the groups of this name before. *)
Theorem C74_graphics : forall before r name n block after reals c i, announced r = Some (Graphics name n) ->
  Forall plain block -> len (references block) <= n -> read_records (before ++ r :: block ++ after) new_ctx = Some c ->
  In i (references block) -> ~ In i (references after) ->
  exists g, get_sprite_data (count_reals reals c) i = (TGraphics, Some g) /\ numbered name (earlier name before) g.
Proof.
  intros before r name n block after reals c i A P L H I N. rewrite reals_get. apply read_app in H as (c1 & H1 & H). cbn [read_records] in H. apply bind_some in H as (c2 & R & H).
  apply read_app in H as (c3 & H3 & H4). assert (0 < n). { assert (0 < len (references block)); [|lia]. destruct (references block); [destruct I|unfold len; cbn [List.length]; lia]. }
  pose proof (step_graphics _ _ _ _ _ A ltac:(lia) R) as W. destruct (block_graphics _ _ _ _ _ P W L ltac:(lia) H3) as [_ G].
  exists (group_name name (groups_of c1 name)). split; [rewrite (read_get i _ _ _ H4 N); exact (G i I)|]. pose proof (read_groups name _ _ _ H1) as E. cbn in E. rewrite Z.add_0_r in E. rewrite E.
  apply group_numbered. unfold earlier, len. lia.
Qed.
(** The same for sounds, imported ones counted. *)
Theorem C74_sounds : forall before r n block after reals c i, announced r = Some (Sounds n) ->
  Forall sound block -> len block <= n -> read_records (before ++ r :: block ++ after) new_ctx = Some c ->
  In i (references block) -> ~ In i (references after) -> get_sprite_data (count_reals reals c) i = (TSound, None).
Proof.
  intros before r n block after reals c i A P L H I N. rewrite reals_get. apply read_app in H as (c1 & H1 & H). cbn [read_records] in H. apply bind_some in H as (c2 & R & H).
  apply read_app in H as (c3 & H3 & H4). assert (0 < n). { assert (0 < len block); [|lia]. destruct block; [destruct I|unfold len; cbn [List.length]; lia]. }
  pose proof (step_sounds _ _ _ _ A ltac:(lia) R) as W. destruct (block_sounds _ _ _ _ P W L H3) as [_ G]. rewrite (read_get i _ _ _ H4 N). exact (G i I).
Qed.
(** Once all announced sprites have come, a sprite belongs to no group. *)
Theorem C74_stray : forall before r name n block s i after reals c, announced r = Some (Graphics name n) -> 0 < n ->
  Forall plain block -> len (references block) = n -> reference s = Some i -> ~ In i (references after) ->
  read_records (before ++ r :: block ++ s :: after) new_ctx = Some c -> get_sprite_data (count_reals reals c) i = (TDefault, None).
Proof.
  intros before r name n block s i after reals c A N P L S NA H. rewrite reals_get. apply read_app in H as (c1 & H1 & H). cbn [read_records] in H. apply bind_some in H as (c2 & R & H).
  apply read_app in H as (c3 & H3 & H4). cbn [read_records] in H4. apply bind_some in H4 as (c4 & R4 & H5). pose proof (step_graphics _ _ _ _ _ A ltac:(lia) R) as W.
  destruct (block_graphics _ _ _ _ _ P W ltac:(lia) ltac:(lia) H3) as [W3 _]. rewrite L, Z.sub_diag in W3. rewrite (read_get i _ _ _ H5 NA). exact (step_stray _ _ _ _ _ _ S W3 R4).
Qed.
(** Without announcements no sprite belongs to a group. *)
Theorem C74_unannounced : forall l reals c i, Forall plain l -> read_records l new_ctx = Some c -> get_sprite_data (count_reals reals c) i = (TDefault, None).
Proof.
  intros l reals c i P H. rewrite reals_get.
  assert (X : forall l c0 c, Forall plain l -> x_type c0 = TDefault -> x_group c0 = None -> (get_sprite_data c0 i = (TDefault, None)) -> read_records l c0 = Some c -> get_sprite_data c i = (TDefault, None)).
  { induction l0 as [|r l0 IH]; intros c0 c' P0 T G D H0; cbn [read_records] in H0; [apply some_inj in H0; subst; exact D|]. apply bind_some in H0 as (c1 & R & H0). inversion P0 as [|? ? P1 P2]; subst.
    pose proof (plain_step r c0 c1 P1 ltac:(congruence) R) as A. apply (IH c1 c' P2); try exact H0.
    - destruct A as (A & _). rewrite A. destruct (reference r); [unfold consume; cbn; rewrite T; reflexivity|exact T].
    - destruct A as (_ & A & _). rewrite A. destruct (reference r); [unfold consume; cbn; rewrite T; cbn; exact G|exact G].
    - rewrite (alike_get _ _ i A). destruct (reference r) as [j|] eqn:E; [|exact D]. destruct (Z.eq_dec i j) as [->|Ne]; [|rewrite consume_get by congruence; exact D].
      unfold consume, get_sprite_data. cbn. rewrite T, G. cbn. rewrite (get_set Z.eqb zeqb_ok), Z.eqb_refl. reflexivity. }
  exact (X l new_ctx c P eq_refl eq_refl eq_refl H).
Qed.
(** All records are read but references that are not of four bytes. *)
Theorem C74_reads : forall l c, (exists c', read_records l c = Some c') <-> Forall readable l.
Proof.
  induction l as [|r l IH]; intros c; [split; [constructor|exists c; reflexivity]|]. cbn [read_records].
  assert (X : (exists c1, read_record r c = Some c1) <-> readable r).
  { unfold readable, read_record. destruct r as [t d]. cbn [fst snd]. destruct (Z.eqb_spec t 255) as [->|N].
    - destruct d as [|a [|b d]].
      + split; [intros [? H]; discriminate H|intros [H _]; contradiction H; reflexivity].
      + split; [intros _; split; discriminate|intros _; eexists; reflexivity].
      + split; [intros _; split; discriminate|intros _; eexists; reflexivity].
    - destruct (Z.eqb_spec t 253) as [->|N3].
      + destruct (Z.eqb_spec (len d) 4) as [E|E]; split.
        * intros _. split; [intros ->; discriminate E|auto].
        * intros _. destruct d as [|a [|b [|e [|f [|? ?]]]]]; try (unfold len in E; cbn [List.length] in E; lia). cbn. eexists. reflexivity.
        * intros [? H]. discriminate H.
        * intros [_ H]. exfalso. apply E. exact (H eq_refl).
      + destruct d as [|a d].
        * split; [intros [? H]; discriminate H|intros [H _]; contradiction H; reflexivity].
        * split; [intros _; split; [discriminate|contradiction]|intros _; eexists; reflexivity]. }
  split.
  - intros [c' H]. apply bind_some in H as (c1 & R & H). constructor; [apply X; eauto|apply (IH c1); eauto].
  - intros F. inversion F as [|? ? F1 F2]; subst. apply X in F1 as [c1 R]. rewrite R. cbn [bind]. apply IH. exact F2.
Qed.
(** Different announcements have different groups, and each group its own
    image files, apart from the sprites of no group. *)
Theorem C74_distinct : forall before r name n block s name' n' g g', announced r = Some (Graphics name n) -> announced s = Some (Graphics name' n') ->
  numbered name (earlier name before) g -> numbered name' (earlier name' (before ++ r :: block)) g' -> g <> g'.
Proof.
  intros before r name n block s name' n' g g' A _ G G' E. subst g'. destruct (numbered_inj _ _ _ _ _ G G') as [<- Q].
  assert (X : forall a b, earlier name (a ++ b) = earlier name a + earlier name b) by (intros; unfold earlier, len; rewrite filter_app, app_length; lia).
  rewrite X, earlier_cons, A in Q. cbn [counts] in Q. destruct (list_eq_dec Z.eq_dec name name); [|contradiction]. assert (0 <= earlier name block) by (unfold earlier, len; lia). lia.
Qed.
Definition is_group (g : bytes) : Prop := g = txt "misc" \/ exists name k, numbered name k g.
Theorem C74_files : forall g g', is_group g -> is_group g' ->
  (mask_file g = mask_file g' -> g = g') /\ (rgba_file g = rgba_file g' -> g = g') /\ mask_file g <> rgba_file g' /\ ((exists name k, numbered name k g) -> g <> txt "misc").
Proof.
  intros g g' G _. unfold mask_file, rgba_file. assert (L : exists p c, g = p ++ [c] /\ c <> 112).
  { destruct G as [->|(name & k & G)]; [exists (txt "mis"), 99; split; [reflexivity|lia]|]. destruct (numbered_last _ _ _ G) as (p & c & E & B). exists p, c. split; [exact E|lia]. }
  split; [apply app_inv_tail|]. split; [apply app_inv_tail|]. split.
  - intros E. destruct L as (p & c & -> & N). change (txt "_32bpp.png") with (txt "_32bp" ++ [112] ++ txt ".png") in E. rewrite !app_assoc in E. apply app_inv_tail in E. apply app_inj_tail in E as [_ E]. exact (N E).
  - intros (name & k & M) ->. destruct (numbered_last _ _ _ M) as (p & c & E & B). change (txt "misc") with (txt "mis" ++ [99]) in E. apply app_inj_tail in E as [_ E]. lia.
Qed.

(** The statistics count each action once ... *)
Theorem C74_counted : forall l reals c a, read_records l new_ctx = Some c -> Forall (fun r => fst r = 255 \/ fst r = 253) l -> a < 253 ->
  fst (stat (count_reals reals c) (a, TDefault)) = len (actions_of a l).
Proof. intros l reals c a H F L. rewrite reals_stat by exact L. rewrite (read_stat a L l new_ctx c F H). cbv zeta. cbn. lia. Qed.
(** ... but give each four bytes too many. *)
Theorem C74_sizes_refuted : forall l reals c a, read_records l new_ctx = Some c -> Forall (fun r => fst r = 255 \/ fst r = 253) l -> a < 253 ->
  snd (stat (count_reals reals c) (a, TDefault)) = file_bytes (actions_of a l) + 4 * len (actions_of a l).
Proof. intros l reals c a H F L. rewrite reals_stat by exact L. rewrite (read_stat a L l new_ctx c F H). cbv zeta. cbn [snd stat new_ctx x_stats dict_get]. lia. Qed.

(** An action that announces no sprites: the next stray sprite is put into its
    group. *)
Theorem C74_nothing_refuted : forall t i c, t < 128 -> 0 <= t -> read_records [(255, [5; t; 0]); (253, [i; 0; 0; 0])] new_ctx = Some c ->
  announced (255, [5; t; 0]) = Some (Graphics (txt "action5") 0) /\ get_sprite_data c i = (TGraphics, Some (txt "action5_0")).
Proof.
  intros t i c T N H. assert (B : Z.testbit t 7 = false).
  { destruct (Z.eq_dec t 0) as [->|]; [reflexivity|]. apply Z.bits_above_log2; [lia|]. apply Z.log2_lt_pow2; lia. }
  split; [unfold announced, announced5; cbn -[Z.testbit]; rewrite B; reflexivity|].
  cbn [read_records] in H. apply bind_some in H as (c1 & R & H). apply bind_some in H as (c2 & R2 & H). apply some_inj in H. subst c2.
  assert (A : announced (255, [5; t; 0]) = Some (Graphics (txt "action5") 0)) by (unfold announced, announced5; cbn -[Z.testbit]; rewrite B; reflexivity).
  pose proof (step_action_some _ _ new_ctx _ _ A ltac:(discriminate) R) as A1. assert (Rf : reference (253, [i; 0; 0; 0]) = Some i) by (unfold reference; cbn; rewrite !Z.lor_0_r; reflexivity).
  pose proof (step_reference _ _ _ _ Rf R2) as A2. rewrite (alike_get _ _ i A2). rewrite (alike_get _ _ i (alike_consume (Some i) _ _ A1)). unfold get_sprite_data. cbn. rewrite ?Z.eqb_refl. reflexivity.
Qed.
(** A recolour sprite announced by an action (a record of 257 bytes, 00 and
    the colours) is not counted: a sprite after the group is put into it. *)
Theorem C74_recolour_refuted : forall remap i c, len remap = 256 ->
  read_records [(255, [5; 21; 1]); (255, 0 :: remap); (253, [i; 0; 0; 0])] new_ctx = Some c -> get_sprite_data c i = (TGraphics, Some (txt "action5_0")).
Proof.
  intros remap i c L H. cbn [read_records] in H. apply bind_some in H as (c1 & R & H). apply bind_some in H as (c2 & R2 & H). apply bind_some in H as (c3 & R3 & H). apply some_inj in H. subst c3.
  assert (A : announced (255, [5; 21; 1]) = Some (Graphics (txt "action5") 1)) by reflexivity. pose proof (step_action_some _ _ new_ctx _ _ A ltac:(discriminate) R) as A1.
  assert (B : announced (255, 0 :: remap) = None) by reflexivity. assert (T : x_type c1 <> TSound) by (destruct A1 as (T & _); rewrite T; discriminate).
  pose proof (step_action_some _ _ _ _ _ B T R2) as A2. assert (Rf : reference (253, [i; 0; 0; 0]) = Some i) by (unfold reference; cbn; rewrite !Z.lor_0_r; reflexivity).
  pose proof (step_reference _ _ _ _ Rf R3) as A3. rewrite (alike_get _ _ i A3). cbn [announce] in A2. rewrite (alike_get _ _ i (alike_consume (Some i) _ _ (alike_trans _ _ _ A2 A1))). unfold get_sprite_data. cbn. rewrite ?Z.eqb_refl. reflexivity.
Qed.

Definition some_file : list record :=
  [(255, [8; 8; 1; 2; 3; 4; 0; 0]); (255, [1; 0; 1; 2]); (253, [1; 0; 0; 0]); (255, [12; 65]); (253, [2; 0; 0; 0]); (253, [9; 0; 0; 0]);
   (255, [1; 0; 2; 255; 1; 0]); (253, [3; 0; 0; 0]); (253, [4; 0; 0; 0]); (255, [10; 1; 1; 5; 0]); (253, [5; 0; 0; 0]);
   (255, [17; 2; 0]); (253, [6; 0; 0; 0]); (255, [254; 0; 1; 2; 3; 4; 0; 0])].
Example C74_case : option_map (fun c => map (get_sprite_data c) [1; 2; 9; 3; 4; 5; 6; 7]) (read_records some_file new_ctx) =
  Some [(TGraphics, Some (txt "train_0")); (TGraphics, Some (txt "train_0")); (TDefault, None); (TGraphics, Some (txt "train_1")); (TGraphics, Some (txt "train_1"));
        (TGraphics, Some (txt "action_a_0")); (TSound, None); (TDefault, None)].
Proof. reflexivity. Qed.
Example C74_holds : Forall plain (firstn 3 (skipn 2 some_file)) /\ Forall readable some_file /\ Forall sound (skipn 12 some_file) /\ announced (255, [1; 0; 1; 2]) = Some (Graphics (txt "train") 2).
Proof.
  split; [|split; [|split]].
  - cbn [firstn skipn some_file]. constructor; [split; [right; eexists; reflexivity|reflexivity]|]. constructor; [split; [left; reflexivity|reflexivity]|].
    constructor; [split; [right; eexists; reflexivity|reflexivity]|constructor].
  - unfold some_file. repeat (constructor; [split; [discriminate|intros E; try discriminate E; reflexivity]|]). constructor.
  - cbn. constructor; [left; eexists; reflexivity|]. constructor; [|constructor]. right. split; [reflexivity|]. do 7 eexists. reflexivity.
  - reflexivity.
Qed.

Print Assumptions C74_graphics.
Print Assumptions C74_sounds.
Print Assumptions C74_stray.
Print Assumptions C74_unannounced.
Print Assumptions C74_reads.
Print Assumptions C74_distinct.
Print Assumptions C74_files.
Print Assumptions C74_counted.
Print Assumptions C74_sizes_refuted.
Print Assumptions C74_nothing_refuted.
Print Assumptions C74_recolour_refuted.
