(** The cache key determines what a sprite is encoded to. *)
From Coq Require Import ZArith List Bool Lia String Permutation.
From Verif Require Import Base BaseFacts SpriteModel CacheModel JsonModel JsonProofs TreeModel SpecTree.
Import ListNotations.
Open Scope string_scope.
Open Scope list_scope.
Open Scope Z_scope.

Lemma text_ok s : text s -> str_ok s = true.
Proof. unfold text, str_ok. intros H. apply forallb_forall. rewrite Forall_forall in H. intros c C. specialize (H c C). lia. Qed.
Lemma bs_ok s : str_ok (bs s) = true.
Proof. unfold bs, str_ok. apply forallb_forall. intros c C. apply in_map_iff in C as (x & <- & _). lia. Qed.
Lemma float_ok t : float_repr t -> float_text t = true.
Proof.
  intros ((c & r & -> & C) & F & P). unfold float_text. apply andb_true_intro. split; [apply andb_true_intro; split|].
  - lia.
  - apply forallb_forall. rewrite Forall_forall in F. intros x X. specialize (F x X). unfold numchar.
    destruct F as [F | F]; [lia|]. cbn in F. destruct F as [<- | [<- | [<- | [<- | []]]]]; reflexivity.
  - apply existsb_exists. destruct P as [P | P]; [exists 46|exists 101]; (split; [exact P|reflexivity]).
Qed.

(** Looking a key up in an object. *)
Fixpoint jget (k : bytes) (l : list (bytes * json)) : option json :=
  match l with [] => None | e :: r => if zlist_eqb k (fst e) then Some (snd e) else jget k r end.
Lemma zlist_eqb_eq : forall a b, zlist_eqb a b = true <-> a = b.
Proof.
  unfold zlist_eqb. induction a as [|x a IH]; intros [|y b]; cbn; split; intros H; try reflexivity; try discriminate.
  - apply andb_prop in H as [L H]. apply andb_prop in H as [E H]. apply Z.eqb_eq in E. subst y. f_equal. apply IH. now rewrite L, H.
  - injection H as -> ->. rewrite Z.eqb_refl. cbn. now apply IH.
Qed.
Lemma zlist_eqb_refl a : zlist_eqb a a = true. Proof. now apply zlist_eqb_eq. Qed.

Lemma insert_key_perm e l : Permutation (e :: l) (insert_key e l).
Proof.
  induction l as [|f l IH]; [reflexivity|]. cbn [insert_key]. destruct (key_le _ _); [reflexivity|].
  rewrite perm_swap. now constructor.
Qed.
Lemma sort_keys_perm l : Permutation l (sort_keys l).
Proof. induction l as [|e l IH]; [constructor|]. cbn. rewrite <- insert_key_perm. now constructor. Qed.

Lemma jget_In : forall l k v, NoDup (map fst l) -> jget k l = Some v <-> In (k, v) l.
Proof.
  induction l as [|[k' v'] l IH]; intros k v N; cbn [jget map fst snd In]; [split; [discriminate|intros []]|].
  inversion N as [|? ? N1 N2]; subst. destruct (zlist_eqb k k') eqn:E.
  - apply zlist_eqb_eq in E. subst k'. split; [intros H; injection H as ->; now left|]. intros [H | H]; [now injection H as ->|].
    exfalso. apply N1. apply in_map_iff. now exists (k, v).
  - rewrite IH by exact N2. split; [now right|]. intros [H | H]; [|exact H]. injection H as -> ->. rewrite zlist_eqb_refl in E. discriminate.
Qed.
Lemma jget_perm l1 l2 k : NoDup (map fst l1) -> Permutation l1 l2 -> jget k l1 = jget k l2.
Proof.
  intros N P. assert (N2 : NoDup (map fst l2)) by (eapply Permutation_NoDup; [apply Permutation_map, P|exact N]).
  destruct (jget k l1) as [v|] eqn:E.
  - symmetry. apply jget_In; [exact N2|]. apply (Permutation_in _ P). now apply jget_In.
  - destruct (jget k l2) as [v|] eqn:E2; [|reflexivity]. exfalso. apply jget_In in E2; [|exact N2].
    apply (Permutation_in _ (Permutation_sym P)) in E2. apply jget_In in E2; [congruence|exact N].
Qed.
Lemma jget_map f l k : jget k (map (fun e => (fst e, f (snd e))) l) = option_map f (jget k l).
Proof. induction l as [|e l IH]; [reflexivity|]. cbn. destruct (zlist_eqb k (fst e)); [reflexivity|exact IH]. Qed.

Definition keys_of (l : list (bytes * json)) := map fst l.
Lemma obj_field l1 l2 k : NoDup (map fst l1) -> NoDup (map fst l2) -> sorted_json (JObj l1) = sorted_json (JObj l2) ->
  option_map sorted_json (jget k l1) = option_map sorted_json (jget k l2).
Proof.
  intros N1 N2 E. cbn [sorted_json] in E. injection E as E. rewrite <- !jget_map.
  assert (M : forall l : list (bytes * json), map fst (map (fun e => (fst e, sorted_json (snd e))) l) = map fst l) by (intros; rewrite map_map; reflexivity).
  rewrite (jget_perm _ _ k ltac:(rewrite M; exact N1) (sort_keys_perm _)). rewrite E.
  symmetry. apply jget_perm; [rewrite M; exact N2|apply sort_keys_perm].
Qed.
Lemma obj_length l1 l2 : sorted_json (JObj l1) = sorted_json (JObj l2) -> List.length l1 = List.length l2.
Proof.
  intros E. cbn [sorted_json] in E. injection E as E. apply (f_equal (@List.length _)) in E.
  rewrite <- !(Permutation_length (sort_keys_perm _)), !map_length in E. exact E.
Qed.

(** Two sprites that may differ only in the files they read. *)
Fixpoint alike (t1 t2 : tree) : Prop :=
  match t1, t2 with
  | TFile a _ ck x y kw, TFile a2 _ ck2 x2 y2 kw2 => a = a2 /\ ck = ck2 /\ x = x2 /\ y = y2 /\ List.length kw = List.length kw2
  | TEmpty, TEmpty => True
  | TMask _ s m mode, TMask _ s2 m2 mode2 => alike s s2 /\ alike m m2 /\ mode = mode2
  | TMove a s, TMove a2 s2 => a_xofs a = a_xofs a2 /\ a_yofs a = a_yofs a2 /\ alike s s2
  | TQuant _ s, TQuant _ s2 => alike s s2
  | _, _ => False
  end.

Definition entries (t : tree) : option (list (bytes * json)) :=
  do j <- fp_data t; match j with JObj l => Some l | _ => None end.
Lemma fp_entries t j : fp_data t = Some j -> exists l, j = JObj l /\ entries t = Some l.
Proof.
  unfold entries. intros E. rewrite E. cbn.
  destruct t; cbn [fp_data] in E; try discriminate.
  - apply some_inj in E. subst j. eauto.
  - apply some_inj in E. subst j. eauto.
  - destruct (fp_data t1); [|discriminate]. destruct (fp_data t2); [|discriminate]. apply some_inj in E. subst j. eauto.
  - destruct (fp_data t); [|discriminate]. apply some_inj in E. subst j. eauto.
  - destruct (fp_data t); [|discriminate]. apply some_inj in E. subst j. eauto.
Qed.
Ltac nodup_keys := cbn; repeat constructor; cbn; intuition discriminate.
Lemma fp_nodup t l : fp_data t = Some (JObj l) -> NoDup (map fst l).
Proof.
  destruct t; cbn [fp_data]; intros E; try discriminate.
  - apply some_inj in E. injection E as <-. nodup_keys.
  - apply some_inj in E. injection E as <-. nodup_keys.
  - destruct (fp_data t1); [|discriminate]. destruct (fp_data t2); [|discriminate]. apply some_inj in E. injection E as <-. nodup_keys.
  - destruct (fp_data t); [|discriminate]. apply some_inj in E. injection E as <-. nodup_keys.
  - destruct (fp_data t); [|discriminate]. apply some_inj in E. injection E as <-. nodup_keys.
Qed.

Lemma jopt_inj a b : sorted_json (jopt a) = sorted_json (jopt b) -> a = b.
Proof. destruct a, b; cbn; intros E; congruence. Qed.
Lemma pair_eq {A B} (a c : A) (b d : B) : a = c -> b = d -> (a, b) = (c, d). Proof. now intros -> ->. Qed.

Section fields.
  Variables l1 l2 : list (bytes * json).
  Hypothesis N1 : NoDup (map fst l1).
  Hypothesis N2 : NoDup (map fst l2).
  Hypothesis E : sorted_json (JObj l1) = sorted_json (JObj l2).
  Lemma field_eq k v1 v2 : jget k l1 = Some v1 -> jget k l2 = Some v2 -> sorted_json v1 = sorted_json v2.
  Proof. intros A B. pose proof (obj_field l1 l2 k N1 N2 E) as F. rewrite A, B in F. now injection F. Qed.
End fields.

Ltac fld F k := let H := fresh "H" in pose proof (F (bs k) _ _ eq_refl eq_refl) as H.

Theorem same_data_alike : forall t1 t2 j1 j2, fp_data t1 = Some j1 -> fp_data t2 = Some j2 ->
  sorted_json j1 = sorted_json j2 -> alike t1 t2.
Proof.
  induction t1 as [a p ck x y kw|a im| |a s IHs m IHm mode|a s IHs|a s IHs]; intros t2 j1 j2 E1 E2 E;
  destruct (fp_entries _ _ E1) as (l1 & -> & _); destruct (fp_entries _ _ E2) as (l2 & -> & _);
  pose proof (field_eq l1 l2 (fp_nodup _ _ E1) (fp_nodup _ _ E2) E) as F;
  destruct t2 as [a2 p2 ck2 x2 y2 kw2|a2 im2| |a2 s2 m2 mode2|a2 s2|a2 s2]; cbn [fp_data] in E1, E2;
  repeat match goal with
    | E : bind (fp_data ?t) _ = Some _ |- _ => let Q := fresh "Q" in destruct (fp_data t) eqn:Q; [cbn [bind] in E|discriminate E]
    | E : None = Some _ |- _ => discriminate E
    | E : Some (JObj _) = Some (JObj _) |- _ => apply some_inj in E; injection E as <-
    end;
  try (exfalso; fld F "class"; discriminate);
  cbn [alike].
  - fld F "w". fld F "h". fld F "xofs". fld F "yofs". fld F "zoom". fld F "bpp". fld F "crop". fld F "colourkey". fld F "x". fld F "y". fld F "kw".
    cbn [snd] in *. apply jopt_inj in H, H0, H4. cbn [sorted_json] in H1, H2, H3, H5, H7, H8.
    destruct a, a2; cbn in *. repeat split; try congruence.
    + destruct ck as [[[r g] b]|], ck2 as [[[r2 g2] b2]|]; cbn in H6; congruence.
    + now apply obj_length in H9.
  - exact I.
  - fld F "sprite". fld F "mask". fld F "mode". cbn [sorted_json snd] in *. repeat split; [eapply IHs|eapply IHm|]; eauto. congruence.
  - fld F "sprites". fld F "xofs". fld F "yofs". cbn [sorted_json map snd] in *. repeat split; [congruence|congruence|]. eapply IHs; eauto. congruence.
  - fld F "sprites". cbn [sorted_json map snd] in *. eapply IHs; eauto. congruence.
Qed.

(** What the list of files determines. *)
Definition times (W : world) (ps : list bytes) : option (list (bytes * bytes)) :=
  (fix go ps := match ps with [] => Some [] | p :: r => do (m, _) <- W p; do l <- go r; Some ((p, m) :: l) end) ps.
Definition files_json (l : list (bytes * bytes)) : list json :=
  map (fun e => JArr [JObj [(bs "path", JStr (fst e))]; JFloat (snd e)]) l.
Lemma fp_files_times W ps js : fp_files W ps = Some js -> exists l, times W ps = Some l /\ js = files_json l.
Proof.
  revert js. induction ps as [|p ps IH]; intros js E; cbn in E; [apply some_inj in E; subst js; exists []; auto|].
  cbn [times]. destruct (W p) as [[m c]|]; [cbn in *|discriminate]. destruct (fp_files W ps) as [r|]; [cbn in *|discriminate].
  apply some_inj in E. subst js. destruct (IH r eq_refl) as (l & A & ->). unfold times in A. rewrite A. cbn. eexists. split; reflexivity.
Qed.
Lemma files_json_inj l1 l2 : map sorted_json (files_json l1) = map sorted_json (files_json l2) -> l1 = l2.
Proof.
  revert l2. induction l1 as [|[p m] l1 IH]; intros [|[p2 m2] l2] E; try discriminate; [reflexivity|].
  cbn in E. injection E as -> -> E. f_equal. now apply IH.
Qed.
Lemma times_app W p q l : times W (p ++ q) = Some l -> exists a b, times W p = Some a /\ times W q = Some b /\ l = a ++ b /\ List.length a = List.length p.
Proof.
  revert l. induction p as [|x p IH]; intros l E; cbn [app] in E; [exists [], l; auto|].
  cbn [times] in *. destruct (W x) as [[m c]|]; [cbn in *|discriminate].
  change ((fix go ps := match ps with [] => Some [] | p :: r => do (m, _) <- W p; do l <- go r; Some ((p, m) :: l) end) (p ++ q)) with (times W (p ++ q)) in E.
  destruct (times W (p ++ q)) as [r|] eqn:R; [cbn in E|discriminate]. apply some_inj in E. subst l.
  destruct (IH r eq_refl) as (a & b & A & B & -> & L). unfold times in A. rewrite A. cbn. exists ((x, m) :: a), b. cbn. rewrite L. auto.
Qed.
Lemma times_cons W p q l : times W (p :: q) = Some l -> exists m c r, W p = Some (m, c) /\ times W q = Some r /\ l = (p, m) :: r.
Proof.
  cbn [times]. destruct (W p) as [[m c]|]; [cbn|discriminate]. intros E.
  change ((fix go ps := match ps with [] => Some [] | p :: r => do (m, _) <- W p; do l <- go r; Some ((p, m) :: l) end) q) with (times W q) in E.
  destruct (times W q) as [r|]; [cbn in E|discriminate]. apply some_inj in E. subst l. eauto 6.
Qed.

Lemma alike_files this t1 t2 : alike t1 t2 -> List.length (tree_files this t1) = List.length (tree_files this t2).
Proof.
  revert t2. induction t1 as [a p ck x y kw|a im| |a s IHs m IHm mode|a s IHs|a s IHs]; intros [a2 p2 ck2 x2 y2 kw2|a2 im2| |a2 s2 m2 mode2|a2 s2|a2 s2] A;
    cbn [alike] in A; try contradiction; cbn [tree_files List.length]; try reflexivity.
  - destruct A as (A & B & _). rewrite !app_length. now rewrite (IHs _ A), (IHm _ B).
  - destruct A as (_ & _ & A). now rewrite (IHs _ A).
  - now rewrite (IHs _ A).
Qed.

(** Attributes of built sprites. *)
Lemma new_file_eq path ck x y a kw t : new_file path ck x y a kw = Some t -> t = TFile a path ck x y kw.
Proof.
  unfold new_file. intros E. destruct (bpp_ok _); [|discriminate].
  match type of E with (if ?c then _ else _) = _ => destruct c end; [|discriminate]. now apply some_inj in E.
Qed.
Lemma built_mask a s m mode : built (TMask a s m mode) -> built s /\ built m /\ new_mask s m mode = Some (TMask a s m mode).
Proof.
  intros B. inversion B as [? ? ? ? ? ? ? ? ? E| ? ? ? ? ? ? E| |s' m' mode' t' Bs Bm E| |]; subst.
  - apply new_file_eq in E. discriminate E.
  - unfold new_image in E. destruct (bpp_ok _); discriminate.
  - assert (s' = s /\ m' = m /\ mode' = mode) as (-> & -> & ->); [|auto].
    unfold new_mask in E. destruct (match a_bpp (attrs_of m') with Some b => b =? 8 | None => true end); [|discriminate]. apply some_inj in E. inversion E. auto.
Qed.
Lemma built_move a s : built (TMove a s) -> built s /\ exists dx dy, new_move s dx dy = TMove a s.
Proof.
  intros B. inversion B as [? ? ? ? ? ? ? ? ? E| ? ? ? ? ? ? E| |s' m' mode' t' Bs Bm E|s' dx dy Bs E|]; subst.
  - apply new_file_eq in E. discriminate E.
  - unfold new_image in E. destruct (bpp_ok _); discriminate.
  - unfold new_mask in E. destruct (match a_bpp (attrs_of m') with Some b => b =? 8 | None => true end); discriminate.
  - split; [exact Bs|]. exists dx, dy. reflexivity.
Qed.
Lemma built_quant a s : built (TQuant a s) -> built s /\ new_quant s = TQuant a s.
Proof.
  intros B. inversion B as [? ? ? ? ? ? ? ? ? E| ? ? ? ? ? ? E| |s' m' mode' t' Bs Bm E|s' dx dy Bs E|s' Bs E]; subst.
  - apply new_file_eq in E. discriminate E.
  - unfold new_image in E. destruct (bpp_ok _); discriminate.
  - unfold new_mask in E. destruct (match a_bpp (attrs_of m') with Some b => b =? 8 | None => true end); discriminate.
  - split; [exact Bs|reflexivity].
Qed.

(** Alike sprites reading files of the same paths and times. *)
Lemma same_tree lib this W1 W2 : honest_times W1 W2 -> forall t1 t2, alike t1 t2 -> built t1 -> built t2 ->
  forall l, times W1 (tree_files this t1) = Some l -> times W2 (tree_files this t2) = Some l ->
  attrs_of t1 = attrs_of t2 /\ get_image lib W1 t1 = get_image lib W2 t2 /\ get_layers lib W1 t1 = get_layers lib W2 t2.
Proof.
  intros HT. induction t1 as [a p ck x y kw|a im| |a s IHs m IHm mode|a s IHs|a s IHs];
    intros [a2 p2 ck2 x2 y2 kw2|a2 im2| |a2 s2 m2 mode2|a2 s2|a2 s2] A B1 B2 l T1 T2; cbn [alike] in A; try contradiction.
  - destruct A as (<- & <- & <- & <- & L). cbn [tree_files] in T1, T2.
    apply times_cons in T1 as (m & c & r & _ & T1 & ->). apply times_cons in T2 as (m' & c' & r' & _ & T2 & E). injection E as _ <-.
    apply times_cons in T1 as (m1 & c1 & r1 & F1 & _ & ->). apply times_cons in T2 as (m2 & c2 & r2 & F2 & _ & E). injection E as <- <- _.
    pose proof (HT _ _ _ _ F1 F2) as <-.
    assert (FI : file_image lib W1 a p x y kw = file_image lib W2 a p x y kw2).
    { unfold file_image. rewrite F1, F2. destruct kw, kw2; try discriminate L; reflexivity. }
    split; [reflexivity|]. cbn [get_image get_layers]. rewrite FI. auto.
  - auto.
  - destruct A as (As & Am & <-). apply built_mask in B1 as (Bs & Bm & N1). apply built_mask in B2 as (Bs2 & Bm2 & N2).
    cbn [tree_files] in T1, T2.
    apply times_cons in T1 as (m1 & c & r & _ & T1 & ->). apply times_cons in T2 as (m1' & c' & r' & _ & T2 & E). injection E as _ <-.
    apply times_cons in T1 as (m3 & c3 & r3 & _ & T1 & ->). apply times_cons in T2 as (m4 & c4 & r4 & _ & T2 & E). injection E as _ <-.
    apply times_app in T1 as (p1 & q1 & P1 & Q1 & -> & L1). apply times_app in T2 as (p2 & q2 & P2 & Q2 & E & L2).
    rewrite <- (alike_files this _ _ As), <- L1 in L2.
    assert (p1 = p2 /\ q1 = q2) as [<- <-].
    { clear - E L2. revert p2 E L2. induction p1 as [|u p1 IH]; intros [|v p2] E L; try discriminate L; [auto|]. cbn in E. injection E as <- E. cbn in L.
      destruct (IH p2 E ltac:(lia)) as [<- <-]. auto. }
    destruct (IHs s2 As Bs Bs2 p1 P1 P2) as (E1 & _ & E3). destruct (IHm m2 Am Bm Bm2 q1 Q1 Q2) as (D1 & _ & D3).
    split; [|split; [reflexivity|cbn [get_layers]; now rewrite E3, D3]].
    unfold new_mask in N1, N2. rewrite E1, D1 in N1. destruct (match a_bpp (attrs_of m2) with Some b => b =? 8 | None => true end); [|discriminate].
    apply some_inj in N1, N2. injection N1 as <-. injection N2 as <-. reflexivity.
  - destruct A as (Ex & Ey & As). apply built_move in B1 as (Bs & dx & dy & N1). apply built_move in B2 as (Bs2 & dx2 & dy2 & N2).
    cbn [tree_files] in T1, T2.
    apply times_cons in T1 as (m1 & c & r & _ & T1 & ->). apply times_cons in T2 as (m1' & c' & r' & _ & T2 & E). injection E as _ <-.
    apply times_cons in T1 as (m3 & c3 & r3 & _ & T1 & ->). apply times_cons in T2 as (m4 & c4 & r4 & _ & T2 & E). injection E as _ <-.
    destruct (IHs s2 As Bs Bs2 _ T1 T2) as (E1 & _ & E3). split; [|split; [reflexivity|exact E3]].
    unfold new_move in N1, N2. injection N1 as <-. injection N2 as <-. cbn [a_xofs a_yofs attrs_of] in *. rewrite E1 in *. congruence.
  - apply built_quant in B1 as (Bs & N1). apply built_quant in B2 as (Bs2 & N2).
    cbn [tree_files] in T1, T2.
    apply times_cons in T1 as (m1 & c & r & _ & T1 & ->). apply times_cons in T2 as (m1' & c' & r' & _ & T2 & E). injection E as _ <-.
    apply times_cons in T1 as (m3 & c3 & r3 & _ & T1 & ->). apply times_cons in T2 as (m4 & c4 & r4 & _ & T2 & E). injection E as _ <-.
    destruct (IHs s2 A Bs Bs2 _ T1 T2) as (E1 & E2 & _).
    assert (a = a2) as <-. { unfold new_quant in N1, N2. rewrite E1 in N1. injection N1 as <-. injection N2 as <-. reflexivity. }
    split; [reflexivity|]. cbn [get_image get_layers]. rewrite E2. auto.
Qed.

(** The values put into a fingerprint are proper JSON. *)
Lemma built_fp_wf : forall t, built t -> forall j, fp_data t = Some j -> jwf j = true.
Proof.
  induction t as [a p ck x y kw|a im| |a s IHs m IHm mode|a s IHs|a s IHs]; intros B j E; cbn [fp_data] in E.
  - apply some_inj in E. subst j. inversion B as [? ? ? ? ? ? ? Tp K N| ? ? ? ? ? ? N| |? ? ? ? ? ? N| |]; subst.
    2: { unfold new_image in N. destruct (bpp_ok _); discriminate. }
    2: { unfold new_mask in N. match type of N with (if ?c then _ else _) = _ => destruct c end; discriminate. }
    apply new_file_eq in N. injection N as <- <- <- <- <- <-.
    unfold fp_attrs. cbn [app jwf forallb fst snd]. rewrite !bs_ok.
    assert (JO : forall o, jwf (jopt o) = true) by (intros []; reflexivity). rewrite !JO.
    assert (CK : jwf (match ck with Some (r, g, b) => JArr [JInt r; JInt g; JInt b] | None => JNull end) = true) by (destruct ck as [[[? ?] ?]|]; reflexivity).
    rewrite CK. cbn [andb]. rewrite andb_true_r. apply forallb_forall. intros e He. rewrite Forall_forall in K. destruct (K e He) as (Te & i & Ei).
    rewrite Ei, (text_ok _ Te). reflexivity.
  - discriminate.
  - apply some_inj in E. subst j. cbn [jwf forallb fst snd]. now rewrite !bs_ok.
  - apply built_mask in B as (Bs & Bm & _). destruct (fp_data s) as [fs|]; [|discriminate]. destruct (fp_data m) as [fm|]; [|discriminate].
    cbn [bind] in E. apply some_inj in E. subst j. cbn [jwf forallb fst snd]. rewrite !bs_ok, (IHs Bs fs eq_refl), (IHm Bm fm eq_refl). reflexivity.
  - apply built_move in B as (Bs & _). destruct (fp_data s) as [fs|]; [|discriminate].
    cbn [bind] in E. apply some_inj in E. subst j. cbn [jwf forallb fst snd]. rewrite !bs_ok, (IHs Bs fs eq_refl). reflexivity.
  - apply built_quant in B as (Bs & _). destruct (fp_data s) as [fs|]; [|discriminate].
    cbn [bind] in E. apply some_inj in E. subst j. cbn [jwf forallb fst snd]. rewrite !bs_ok, (IHs Bs fs eq_refl). reflexivity.
Qed.
Lemma built_paths this : text this -> forall t, built t -> Forall text (tree_files this t).
Proof.
  intros T. induction t as [a p ck x y kw|a im| |a s IHs m IHm mode|a s IHs|a s IHs]; intros B; cbn [tree_files]; repeat (apply Forall_cons; [exact T|]); try apply Forall_nil.
  - inversion B as [? ? ? ? ? ? ? Tp K N| ? ? ? ? ? ? N| |? ? ? ? ? ? N| |]; subst.
    2: { unfold new_image in N. destruct (bpp_ok _); discriminate. }
    2: { unfold new_mask in N. match type of N with (if ?c then _ else _) = _ => destruct c end; discriminate. }
    apply new_file_eq in N. injection N as <- <- <- <- <- <-. repeat constructor; assumption.
  - apply built_mask in B as (Bs & Bm & _). apply Forall_app. auto.
  - apply built_move in B as (Bs & _). auto.
  - apply built_quant in B as (Bs & _). auto.
Qed.
Lemma fp_files_wf W : file_system W -> forall ps, Forall text ps -> forall js, fp_files W ps = Some js -> forallb jwf js = true.
Proof.
  intros FS. induction ps as [|p ps IH]; intros T js E; cbn [fp_files] in E; [apply some_inj in E; subst; reflexivity|].
  destruct (W p) as [[m c]|] eqn:Wp; [cbn [bind] in E|discriminate]. destruct (fp_files W ps) as [r|]; [cbn [bind] in E|discriminate].
  apply some_inj in E. subst js. inversion T as [|? ? Tp Tr]; subst. cbn [forallb jwf fst snd]. rewrite bs_ok, (text_ok _ Tp), (float_ok _ (FS _ _ _ Wp)), (IH Tr r eq_refl). reflexivity.
Qed.
Lemma fingerprint_wf this W t j : text this -> file_system W -> built t -> fingerprint this W t = Some j -> jwf j = true.
Proof.
  intros T FS B. unfold fingerprint. destruct (fp_data t) as [d|] eqn:D; [cbn [bind]|discriminate]. destruct (fp_files _ _) as [fs|] eqn:F; [cbn [bind]|discriminate].
  intros E. apply some_inj in E. subst j. cbn [jwf forallb fst snd]. rewrite !bs_ok, (built_fp_wf _ B _ D), (fp_files_wf W FS _ (built_paths this T t B) _ F). reflexivity.
Qed.

Theorem same_text_same_data lib compress this W1 W2 t1 t2 j1 j2 :
  text this -> file_system W1 -> file_system W2 -> honest_times W1 W2 -> built t1 -> built t2 ->
  fingerprint this W1 t1 = Some j1 -> fingerprint this W2 t2 = Some j2 -> dumps j1 = dumps j2 ->
  real_data lib compress W1 t1 = real_data lib compress W2 t2.
Proof.
  intros T FS1 FS2 HT B1 B2 F1 F2 E.
  apply dumps_inj in E; [|exact (fingerprint_wf this W1 t1 j1 T FS1 B1 F1)|exact (fingerprint_wf this W2 t2 j2 T FS2 B2 F2)].
  unfold fingerprint in F1, F2.
  destruct (fp_data t1) as [d1|] eqn:D1; [cbn [bind] in F1|discriminate]. destruct (fp_files W1 _) as [fs1|] eqn:P1; [cbn [bind] in F1|discriminate].
  destruct (fp_data t2) as [d2|] eqn:D2; [cbn [bind] in F2|discriminate]. destruct (fp_files W2 _) as [fs2|] eqn:P2; [cbn [bind] in F2|discriminate].
  apply some_inj in F1, F2. subst j1 j2.
  assert (N : forall (a b : json), NoDup (map fst [(bs "data", a); (bs "files", b)])) by (intros; nodup_keys).
  pose proof (field_eq _ _ (N _ _) (N _ _) E (bs "data") _ _ eq_refl eq_refl) as ED.
  pose proof (field_eq _ _ (N _ _) (N _ _) E (bs "files") _ _ eq_refl eq_refl) as EF. cbn [snd] in ED, EF.
  apply fp_files_times in P1 as (l1 & T1 & ->). apply fp_files_times in P2 as (l2 & T2 & ->).
  cbn [sorted_json] in EF. injection EF as EF. apply files_json_inj in EF. subst l2.
  pose proof (same_data_alike _ _ _ _ D1 D2 ED) as A.
  destruct (same_tree lib this W1 W2 HT t1 t2 A B1 B2 l1 T1 T2) as (Ea & _ & El).
  unfold real_data. destruct t1, t2; cbn [alike] in A; try contradiction; try reflexivity; rewrite El, Ea; reflexivity.
Qed.

(** Builds with one cache directory. *)
Section history.
  Variables (lib : pil) (compress : bytes -> bytes) (md5 : bytes -> key) (this : bytes).
  Variable known : list (world * tree).
  Hypothesis Hthis : text this.
  Hypothesis Hfs : forall W t, In (W, t) known -> file_system W /\ built t.
  Hypothesis Hhon : forall W t W' t', In (W, t) known -> In (W', t') known -> honest_times W W'.
  Hypothesis Hmd5 : forall W t W' t' j j', In (W, t) known -> In (W', t') known ->
    fingerprint this W t = Some j -> fingerprint this W' t' = Some j' -> md5 (dumps j) = md5 (dumps j') -> dumps j = dumps j'.

  (** Every file in the cache directory is the encoding of a known sprite. *)
  Definition sound (d : disk) : Prop := forall k v, d_files d k = Some v ->
    exists W t, In (W, t) known /\ cache_key md5 this W t = Some k /\ real_data lib compress W t = Some v.

  Lemma key_data W t W' t' k : In (W, t) known -> In (W', t') known ->
    cache_key md5 this W t = Some k -> cache_key md5 this W' t' = Some k -> real_data lib compress W t = real_data lib compress W' t'.
  Proof.
    intros I I' K K'. unfold cache_key in K, K'. destruct (fingerprint this W t) as [j|] eqn:J; [|discriminate]. destruct (fingerprint this W' t') as [j'|] eqn:J'; [|discriminate].
    cbn [bind] in K, K'. apply some_inj in K, K'. destruct (Hfs _ _ I), (Hfs _ _ I').
    apply (same_text_same_data lib compress this W W' t t' j j'); try assumption; [exact (Hhon _ _ _ _ I I')|]. apply (Hmd5 W t W' t' j j' I I' J J'). congruence.
  Qed.

  Lemma sprite_data_spec W d c t dc r : In (W, t) known -> sound d -> sprite_data lib compress md5 this W (d, c) t = (dc, r) ->
    sound (fst dc) /\ (forall v, r = Some v -> real_data lib compress W t = Some v).
  Proof.
    intros I S. unfold sprite_data. destruct (fp_data t) as [f|].
    2: { intros E. apply pair_inj in E as [<- <-]. split; [exact S|]. auto. }
    destruct (cache_key md5 this W t) as [k|] eqn:K.
    2: { intros E. apply pair_inj in E as [<- <-]. split; [exact S|]. intros v E. discriminate. }
    unfold cache_get. destruct (kmem k (c_index c)).
    - destruct (d_files d k) as [v|] eqn:F.
      + intros E. apply pair_inj in E as [<- <-]. split; [exact S|]. intros v' E. apply some_inj in E. subst v'.
        destruct (S k v F) as (W' & t' & I' & K' & R). rewrite <- R. eapply key_data; eauto.
      + destruct (real_data lib compress W t) as [v|] eqn:R; intros E; apply pair_inj in E as [<- <-]; [|split; [exact S|discriminate]].
        split; [|auto]. intros x v' Fx. cbn in Fx. unfold kset in Fx. destruct (Nat.eqb_spec x k) as [-> | Nx]; [|now apply S].
        apply some_inj in Fx. subst v'. eauto.
    - destruct (real_data lib compress W t) as [v|] eqn:R; intros E; apply pair_inj in E as [<- <-]; [|split; [exact S|discriminate]].
      split; [|auto]. intros x v' Fx. cbn in Fx. unfold kset in Fx. destruct (Nat.eqb_spec x k) as [-> | Nx]; [|now apply S].
      apply some_inj in Fx. subst v'. eauto.
  Qed.

  Lemma sprites_data_spec W ts : (forall t, In t ts -> In (W, t) known) -> forall dc dc' r, sound (fst dc) ->
    sprites_data lib compress md5 this W dc ts = (dc', r) ->
    sound (fst dc') /\ (forall vs, r = Some vs -> Forall2 (fun t v => real_data lib compress W t = Some v) ts vs).
  Proof.
    induction ts as [|t ts IH]; intros I dc dc' r S E; cbn [sprites_data] in E.
    - apply pair_inj in E as [<- <-]. split; [exact S|]. intros vs V. apply some_inj in V. subst. constructor.
    - destruct dc as [d c]. destruct (sprite_data lib compress md5 this W (d, c) t) as [dc1 r1] eqn:E1.
      destruct (sprite_data_spec W d c t dc1 r1 (I t (or_introl eq_refl)) S E1) as [S1 R1].
      destruct r1 as [v|]; [|apply pair_inj in E as [<- <-]; split; [exact S1|discriminate]].
      destruct (sprites_data lib compress md5 this W dc1 ts) as [dc2 r2] eqn:E2. apply pair_inj in E as [<- <-].
      destruct (IH (fun x X => I x (or_intror X)) dc1 dc2 r2 S1 E2) as [S2 R2]. split; [exact S2|].
      intros vs V. destruct r2 as [vs2|]; [|discriminate]. cbn in V. apply some_inj in V. subst vs. constructor; auto.
  Qed.

  Lemma builds_spec : forall bl d, (forall b t, In b bl -> In t (b_sprites b) -> In (b_files b, t) known) -> sound d ->
    forall i b vs, nth_error bl i = Some b -> nth_error (builds lib compress md5 this d bl) i = Some (Some vs) ->
    Forall2 (fun t v => real_data lib compress (b_files b) t = Some v) (b_sprites b) vs.
  Proof.
    induction bl as [|b bl IH]; intros d I S i b' vs N R; [destruct i; discriminate|]. cbn [builds] in R.
    unfold build_data in R. destruct (sprites_data lib compress md5 this (b_files b) (d, cache_load d (b_clean b)) (b_sprites b)) as [[d1 c1] r] eqn:E.
    destruct (sprites_data_spec (b_files b) (b_sprites b) (fun t T => I b t (or_introl eq_refl) T) (d, cache_load d (b_clean b)) _ _ S E) as [S1 R1]. cbn [fst] in S1.
    destruct i as [|i]; cbn [nth_error] in N, R.
    - apply some_inj in N. subst b'. apply some_inj in R. subst r. auto.
    - eapply IH; [| |exact N|exact R]; [intros x t X T; apply I; [now right|exact T]|].
      intros k v F. cbn in F. destruct (stale c1 k); [discriminate|]. auto.
  Qed.
End history.

Lemma no_key_iff t : fp_data t = None <-> has_image t.
Proof.
  induction t as [a p ck x y kw|a im| |a s IHs m IHm mode|a s IHs|a s IHs]; cbn [fp_data has_image].
  - split; [discriminate|intros []].
  - split; auto.
  - split; [discriminate|intros []].
  - destruct (fp_data s); cbn [bind]; [|split; [intros _; left; now apply IHs|reflexivity]].
    destruct (fp_data m); cbn [bind]; [|split; [intros _; right; now apply IHm|reflexivity]].
    split; [discriminate|]. intros [H | H]; [apply IHs in H|apply IHm in H]; discriminate.
  - destruct (fp_data s); cbn [bind]; rewrite <- IHs; split; intros; congruence.
  - destruct (fp_data s); cbn [bind]; rewrite <- IHs; split; intros; congruence.
Qed.
