(** C81: [==] on actions. *)
From Coq Require Import ZArith List Bool String Lia Permutation.
From Verif Require Import Base BaseFacts CommonModel RecordsModel PropModel Action0Model Action14Model VA2Model ParserModel PyValue EqModel SpecEq EqProofs.
Import ListNotations.
Open Scope string_scope.
Open Scope list_scope.
Open Scope Z_scope.

(** ** Reference objects: [CB(5) == Ref(0x8005)], and nothing else. *)
Theorem C81_references : forall a b, Ref_eq a b = true <-> a = b.
Proof.
  intros a b. unfold Ref_eq. rewrite !andb_true_iff, !Z.eqb_eq. split; [tauto|].
  intros ->. repeat split; auto. apply eqb_reflx.
Qed.

(** ** DefineStrings and SetDescription: equal objects have equal attributes. *)
Theorem C81_strings : forall a b, action4_eq a b = true <-> a = b.
Proof.
  intros [f l o g s] [f' l' o' g' s']. unfold action4_eq; cbn [a4_feature a4_lang a4_offset a4_generic a4_strings].
  rewrite !andb_true_iff, !Z.eqb_eq, eqb_true_iff, (list_eq_decides _ bytes_decides s s'). split.
  - intros [[[[-> ->] ->] ->] ->]; reflexivity.
  - intro E; injection E; intros; subst; tauto.
Qed.
Theorem C81_description : forall a b, action8_eq a b = true <-> a = b.
Proof.
  intros [v g n d] [v' g' n' d']. unfold action8_eq; cbn [a8_version a8_grfid a8_name a8_desc].
  rewrite !andb_true_iff, !Z.eqb_eq, !(bytes_decides _ _). split.
  - intros [[[-> ->] ->] ->]; reflexivity.
  - intro E; injection E; intros; subst; tauto.
Qed.

(** ** Action3 *)
Lemma id_eq_iff a b : id_eq a b = true <-> a = b.
Proof. destruct a, b; cbn; try rewrite Z.eqb_eq; split; congruence. Qed.
Lemma ref_eq_iff a b : ref_eq a b = true <-> held_id a = held_id b.
Proof. apply id_eq_iff. Qed.

Definition map3_ok (a : map3) : Prop := unique (m_maps a).
Definition map3_same (a b : map3) : Prop :=
  m_feature a = m_feature b /\ m_ids a = m_ids b /\ m_override a = m_override b
  /\ held_id (m_default a) = held_id (m_default b)
  /\ same_entries (fun x y => held_id x = held_id y) (m_maps a) (m_maps b).
Lemma same_ids a b :
  same_entries (fun v w => ref_eq v w = true) a b <-> same_entries (K := Z) (fun x y => held_id x = held_id y) a b.
Proof.
  split; intros (m & P & F); exists m; (split; [exact P|]); revert F; apply Forall2_imp;
    intros p q [E H]; (split; [exact E|]); now apply ref_eq_iff.
Qed.
Lemma map3_eq_same a b : map3_ok a -> map3_ok b -> (map3_eq a b = true <-> map3_same a b).
Proof.
  intros Ua Ub. unfold map3_eq, map3_same, ref_dict_eq.
  rewrite !andb_true_iff, Z.eqb_eq, eqb_true_iff, ref_eq_iff, (list_eq_decides _ Z_decides (m_ids a) (m_ids b)),
    (dict_eq_same Z.eqb Z_decides ref_eq _ _ Ua Ub), same_ids. tauto.
Qed.

Theorem C81_map_equivalence : equivalence map3_ok map3_eq.
Proof.
  split; [|split].
  - intros a Ua. apply map3_eq_same; auto. repeat split; auto. now apply same_entries_refl.
  - intros a b Ua Ub. apply eq_true_iff_eq. rewrite !map3_eq_same by auto.
    split; intros (A & B & C & D & E); repeat split; auto; apply same_entries_sym in E;
      destruct E as (m & P & F); exists m; (split; [exact P|]); revert F; apply Forall2_imp; intros p q [G H]; auto.
  - intros a b c Ua Ub Uc. rewrite !map3_eq_same by auto.
    intros (A & B & C & D & E) (A' & B' & C' & D' & E'). repeat split; try congruence.
    revert E E'. apply same_entries_trans. intros; congruence.
Qed.

Lemma all_some_F2 {A B} (f : A -> option B) l r : all_some f l = Some r <-> Forall2 (fun x y => f x = Some y) l r.
Proof.
  revert r; induction l as [|x l IH]; intros r; cbn.
  - split; intro H; [injection H as <-; constructor|inversion H; reflexivity].
  - split; intro H.
    + destruct (f x) as [y|] eqn:E; [|discriminate]. cbn in H. destruct (all_some f l) as [s|]; [|discriminate].
      injection H as <-. constructor; auto. now apply IH.
    + inversion H as [|? y ? s E F]; subst. rewrite E. cbn. now rewrite (proj2 (IH s) F).
Qed.
Lemma held_ref_id h r : held_ref h = Some r -> held_id h = Some (get_ref_id r).
Proof. destruct h; cbn; congruence. Qed.
Lemma held_id_ref h n : held_id h = Some n -> exists r, held_ref h = Some r /\ get_ref_id r = n.
Proof. destruct h as [r|]; cbn; intro E; [injection E as <-; eauto|discriminate]. Qed.

Definition entry_bytes (kv : Z * ref_obj) : option bytes := concat_opt [pack_B (fst kv); pack_H (get_ref_id (snd kv))].

Lemma concat_opt_app l m : concat_opt (l ++ m) = do a <- concat_opt l; do b <- concat_opt m; Some (a ++ b).
Proof.
  induction l as [|o l IH]; cbn.
  - now destruct (concat_opt m).
  - destruct o as [x|]; [|reflexivity]. cbn. rewrite IH. destruct (concat_opt l) as [y|]; [|reflexivity]. cbn.
    destruct (concat_opt m); [|reflexivity]. cbn. now rewrite app_assoc.
Qed.

(** Equal assignments (with ids) write the same record, up to the order of the
    entries of [maps]. *)
Theorem C81_map_record : forall a b x,
  map3_ok a -> map3_ok b -> m_ids a <> [] -> map3_eq a b = true -> map3_record a = Some x ->
  exists y, map3_record b = Some y /\ same_blocks x y.
Proof.
  intros a b x Ua Ub Ne E R. apply (map3_eq_same a b Ua Ub) in E as (A & B & C & D & m' & P & F).
  unfold map3_record in *. rewrite <- A, <- B, <- C.
  destruct (all_some _ (m_maps a)) as [ma|] eqn:Ma; [|discriminate]. cbn [bind] in R.
  destruct (held_ref (m_default a)) as [da|] eqn:Da; [|discriminate]. cbn [bind] in R.
  apply held_ref_id in Da. rewrite Da in D. destruct (held_id_ref _ _ (eq_sym D)) as (db & Db & Idb).
  rewrite Db. apply all_some_F2 in Ma.
  (* the entries of b, in the order of a *)
  assert (Q : exists mb', Forall2 (fun kv y => (do r <- held_ref (snd kv); Some (fst kv, r)) = Some y) m' mb'
      /\ Forall2 (fun p q => entry_bytes p = entry_bytes q) ma mb').
  { clear -Ma F. revert ma Ma. induction F as [|p q l m H F IH]; intros ma Ma; inversion Ma as [|? y ? s E G]; subst.
    - exists []; auto.
    - destruct (IH _ G) as (mb & I1 & I2). destruct H as [Ek Ei].
      destruct (held_ref (snd p)) as [r|] eqn:Er; [|discriminate]. cbn in E. injection E as <-.
      apply held_ref_id in Er. rewrite Er in Ei. destruct (held_id_ref _ _ (eq_sym Ei)) as (r' & Er' & I').
      exists ((fst q, r') :: mb). split; constructor; auto.
      + now rewrite Er'.
      + unfold entry_bytes; cbn [fst snd]. now rewrite Ek, I'. }
  destruct Q as (mb' & G1 & G2).
  destruct (Permutation_F2 _ _ _ (Permutation_sym P) _ G1) as (mb & P' & G3).
  rewrite (proj2 (all_some_F2 _ _ _) G3). cbn [bind].
  unfold action3_data in *. cbn [a3_ids a3_maps a3_default a3_feature] in *.
  destruct (len (m_ids a) =? 0) eqn:L.
  { exfalso. apply Ne. destruct (m_ids a); [reflexivity|]. unfold len in L. cbn in L. discriminate. }
  assert (Ll : len ma = len mb).
  { unfold len. f_equal. rewrite (F2_length _ _ _ G2). now apply Permutation_length. }
  rewrite <- Ll, Idb.
  rewrite !concat_opt_app in *.
  destruct (concat_opt [pack_B 3; pack_B (m_feature a); pack_B (len (m_ids a))]) as [h1|]; [|discriminate]. cbn [bind] in *.
  destruct (concat_opt (map _ (m_ids a))) as [h2|]; [|discriminate]. cbn [bind] in *.
  destruct (concat_opt [pack_B (len ma)]) as [h3|]; [|discriminate]. cbn [bind] in *.
  destruct (concat_opt (map (fun kv : Z * ref_obj => concat_opt [pack_B (fst kv); pack_H (get_ref_id (snd kv))]) ma)) as [e|] eqn:Ee; [|discriminate].
  cbn [bind] in *.
  destruct (concat_opt [pack_H (get_ref_id da)]) as [t|]; [|discriminate]. cbn [bind] in *. injection R as <-.
  destruct (blocks_same entry_bytes entry_bytes ma mb mb' e G2 (Permutation_sym P') Ee) as (bs & bs' & _ & -> & E2 & P2).
  unfold entry_bytes in E2. rewrite E2. cbn [bind].
  eexists; split; [reflexivity|].
  exists (h1 ++ h2 ++ h3), bs, bs', t. rewrite <- !app_assoc. auto.
Qed.
(** In the same order, the same bytes. *)
Theorem C81_map_record_ordered : forall a b,
  map3_ok a -> map3_ok b -> m_ids a <> [] -> map3_eq a b = true -> map fst (m_maps a) = map fst (m_maps b) ->
  map3_record a <> None -> map3_record a = map3_record b.
Proof.
  intros a b Ua Ub Ne E O R. apply (map3_eq_same a b Ua Ub) in E as (A & B & C & D & S).
  assert (F : Forall2 (fun p q => fst p = fst q /\ held_id (snd p) = held_id (snd q)) (m_maps a) (m_maps b)).
  { destruct S as (m' & P & F). unfold map3_ok, unique in *.
    assert (K : map fst m' = map fst (m_maps b)) by (rewrite <- O; symmetry; apply (keys_same (fun x y => held_id x = held_id y) _ _ F)).
    enough (m' = m_maps b) as <- by exact F.
    clear -P K Ub. assert (U' : NoDup (map fst m')) by now rewrite K.
    assert (G : forall p, In p m' <-> In p (m_maps b)).
    { intro p; split; apply Permutation_in; [symmetry|]; exact P. }
    clear P. revert U' Ub K G. generalize (m_maps b) as l. induction m' as [|[k v] m IH]; intros [|[k' v'] l] U' Ub K G; try discriminate; auto.
    cbn in *. injection K as <- K. inversion U' as [|? ? N1 N2]; subst. inversion Ub as [|? ? N3 N4]; subst.
    assert (v = v').
    { destruct (proj1 (G (k, v)) (or_introl eq_refl)) as [E | I]; [congruence|].
      exfalso; apply N3. now apply (in_map fst) in I. }
    subst. f_equal. apply IH; auto. intros [c w]. split; intro I.
    - destruct (proj1 (G (c, w)) (or_intror I)) as [E | J]; auto. injection E as -> ->.
      exfalso; apply N1. now apply (in_map fst) in I.
    - destruct (proj2 (G (c, w)) (or_intror I)) as [E | J]; auto. injection E as -> ->.
      exfalso; apply N3. now apply (in_map fst) in I. }
  clear S O Ua Ub. unfold map3_record in *. rewrite <- A, <- B, <- C in *.
  destruct (all_some _ (m_maps a)) as [ma|] eqn:Ma; [|cbn in R; congruence]. cbn [bind] in *.
  destruct (held_ref (m_default a)) as [da|] eqn:Da; [|cbn in R; congruence]. cbn [bind] in *.
  apply held_ref_id in Da. rewrite Da in D. destruct (held_id_ref _ _ (eq_sym D)) as (db & Db & Idb). rewrite Db.
  apply all_some_F2 in Ma.
  assert (Q : exists mb, Forall2 (fun kv y => (do r <- held_ref (snd kv); Some (fst kv, r)) = Some y) (m_maps b) mb
      /\ map entry_bytes ma = map entry_bytes mb).
  { clear -Ma F. revert ma Ma. induction F as [|p q l m H F IH]; intros ma Ma; inversion Ma as [|? y ? s E G]; subst.
    - exists []; auto.
    - destruct (IH _ G) as (mb & I1 & I2). destruct H as [Ek Ei].
      destruct (held_ref (snd p)) as [r|] eqn:Er; [|discriminate]. cbn in E. injection E as <-.
      apply held_ref_id in Er. rewrite Er in Ei. destruct (held_id_ref _ _ (eq_sym Ei)) as (r' & Er' & I').
      exists ((fst q, r') :: mb). split.
      + constructor; auto. now rewrite Er'.
      + cbn [map]. rewrite I2. f_equal. unfold entry_bytes; cbn [fst snd]. now rewrite Ek, I'. }
  destruct Q as (mb & G1 & G2). rewrite (proj2 (all_some_F2 _ _ _) G1). cbn [bind].
  unfold action3_data; cbn [a3_ids a3_maps a3_default a3_feature].
  destruct (len (m_ids a) =? 0) eqn:L.
  { exfalso. apply Ne. destruct (m_ids a); [reflexivity|]. unfold len in L. cbn in L. discriminate. }
  assert (Ll : len ma = len mb) by (unfold len; rewrite <- (map_length entry_bytes ma), G2, map_length; reflexivity).
  change (fun kv : Z * ref_obj => concat_opt [pack_B (fst kv); pack_H (get_ref_id (snd kv))]) with entry_bytes.
  now rewrite Idb, Ll, G2.
Qed.

(** Without ids the record holds the default itself: [5] and [CB(5)] are equal,
    and only the first one can be written. *)
Theorem C81_map_no_ids_refuted :
  let a := mkM 0 [] [] (Held (RInt 5)) false in let b := mkM 0 [] [] (Held (RRef 32773)) false in
  map3_eq a b = true /\ map3_record a = Some [3; 0; 0; 0; 5; 0] /\ map3_record b = None.
Proof. repeat split. Qed.

(** Two assignments to different actions that have no id yet are equal; after
    the ids are given they write different records. *)
Definition given (ids : nat -> Z) (h : held) : held :=
  match h with Unresolved a => Held (RAct (ids a)) | _ => h end.
Theorem C81_map_unresolved_refuted :
  let a := mkM 0 [1] [] (Unresolved 1) false in let b := mkM 0 [1] [] (Unresolved 2) false in
  map3_eq a b = true
  /\ forall ids, 0 <= ids 1%nat < 65536 -> 0 <= ids 2%nat < 65536 -> ids 1%nat <> ids 2%nat ->
       let f c := mkM (m_feature c) (m_ids c) (m_maps c) (given ids (m_default c)) (m_override c) in
       exists x y, map3_record (f a) = Some x /\ map3_record (f b) = Some y /\ x <> y.
Proof.
  split; [reflexivity|]. intros ids R1 R2 N f.
  assert (W : forall v, 0 <= v < 65536 -> exists b, pack_H v = Some b) by (intros; eexists; now apply pack_H_ok).
  destruct (W _ R1) as (b1 & E1). destruct (W _ R2) as (b2 & E2).
  exists ([3; 0; 1; 1; 0] ++ b1), ([3; 0; 1; 1; 0] ++ b2).
  repeat split.
  - unfold f, map3_record, given; cbn. rewrite E1. cbn. now rewrite app_nil_r.
  - unfold f, map3_record, given; cbn. rewrite E2. cbn. now rewrite app_nil_r.
  - intro E. apply app_inv_head in E. subst b2.
    pose proof (rd_H_pack _ _ [] E1) as P1. pose proof (rd_H_pack _ _ [] E2) as P2. congruence.
Qed.

(** ** Switch *)
Lemma range_eq_iff r s : range_eq r s = true <-> g_low r = g_low s /\ g_high r = g_high s /\ held_id (g_ref r) = held_id (g_ref s).
Proof. unfold range_eq. rewrite !andb_true_iff, !Z.eqb_eq, ref_eq_iff. tauto. Qed.
Definition switch_same (a b : switch) : Prop :=
  s_feature a = s_feature b /\ s_ref_id a = s_ref_id b /\ s_related a = s_related b /\ s_code a = s_code b
  /\ Forall2 (fun r s => g_low r = g_low s /\ g_high r = g_high s /\ held_id (g_ref r) = held_id (g_ref s)) (s_ranges a) (s_ranges b)
  /\ held_id (s_default a) = held_id (s_default b).
Lemma switch_eq_same a b : switch_eq a b = true <-> switch_same a b.
Proof.
  unfold switch_eq, switch_same.
  rewrite !andb_true_iff, !Z.eqb_eq, eqb_true_iff, ref_eq_iff, id_eq_iff, (bytes_decides _ _), list_eq_Forall2.
  split.
  - intros (((((A & B) & C) & D) & E) & F). repeat (split; [assumption|]). split; [|assumption].
    revert E. apply Forall2_imp. intros; now apply range_eq_iff.
  - intros (A & B & C & D & E & F). repeat split; auto.
    revert E. apply Forall2_imp. intros; now apply range_eq_iff.
Qed.
Theorem C81_switch_equivalence : equivalence (fun _ => True) switch_eq.
Proof.
  split; [|split].
  - intros a _. apply switch_eq_same. repeat (split; [reflexivity|]). split; [|reflexivity].
    induction (s_ranges a); constructor; auto.
  - intros a b _ _. apply eq_true_iff_eq. rewrite !switch_eq_same.
    split; intros (A & B & C & D & E & F); repeat (split; [congruence|]); (split; [|congruence]);
      apply F2_flip in E; revert E; apply Forall2_imp; intros x y (P & Q & R); auto.
  - intros a b c _ _ _. rewrite !switch_eq_same.
    intros (A & B & C & D & E & F) (A' & B' & C' & D' & E' & F'). repeat (split; [congruence|]). split; [|congruence].
    apply (F2_trans _ _ _ _ _ _ E E'). intros x y z _ _ _ (P & Q & R) (P' & Q' & R'). repeat split; congruence.
Qed.

(** Equal switches (with ids) with the same subroutines write the same record. *)
Theorem C81_switch_record : forall tab a b,
  s_subs a = s_subs b -> switch_eq a b = true -> switch_record tab a = switch_record tab b.
Proof.
  intros tab a b U E. apply switch_eq_same in E as (A & B & C & D & F & G).
  unfold switch_record. rewrite A, B, C, D, U.
  destruct (parse_code (s_code b)) as [ls|]; [|reflexivity]. cbn [bind].
  set (f := fun r => do h <- held_ref (g_ref r); Some (mkRange (g_low r) (g_high r) h)).
  assert (Q : match all_some f (s_ranges a), all_some f (s_ranges b) with
      | Some ra, Some rb => map range_data ra = map range_data rb | None, None => True | _, _ => False end).
  { clear -F. induction F as [|r s l m H F IH]; [reflexivity|]. cbn [all_some]. destruct H as (L & H & I).
    destruct (held_ref (g_ref r)) as [x|] eqn:Er.
    - assert (Fr : f r = Some (mkRange (g_low r) (g_high r) x)) by (unfold f; now rewrite Er).
      apply held_ref_id in Er. rewrite Er in I. destruct (held_id_ref _ _ (eq_sym I)) as (y & Ey & Iy).
      assert (Fs : f s = Some (mkRange (g_low s) (g_high s) y)) by (unfold f; now rewrite Ey).
      rewrite Fr, Fs. cbn [bind]. destruct (all_some f l), (all_some f m); cbn [bind]; auto.
      cbn [map]. rewrite IH. f_equal. unfold range_data; cbn [r_low r_high r_ref]. now rewrite L, H, Iy.
    - assert (Fr : f r = None) by (unfold f; now rewrite Er).
      assert (Fs : f s = None) by (unfold f; destruct (g_ref r); [discriminate|]; destruct (g_ref s); [discriminate|reflexivity]).
      rewrite Fr, Fs. exact Logic.I. }
  destruct (all_some f (s_ranges a)) as [ra|], (all_some f (s_ranges b)) as [rb|]; try contradiction; [|reflexivity].
  cbn [bind].
  destruct (held_ref (s_default a)) as [da|] eqn:Da.
  - apply held_ref_id in Da. rewrite Da in G. destruct (held_id_ref _ _ (eq_sym G)) as (db & Db & Ib).
    rewrite Db. cbn [bind]. destruct (s_ref_id b); [|reflexivity]. cbn [bind].
    unfold switch_data; cbn [sw_feature sw_ref_id sw_related sw_subs sw_lines sw_ranges sw_default]. now rewrite Q, Ib.
  - destruct (s_default a); [discriminate|]. destruct (s_default b); [discriminate|]. reflexivity.
Qed.

(** The comparison does not look at the subroutines: two switches that call
    different actions are equal, and write different records. *)
Theorem C81_switch_subroutines_refuted :
  let sw i := mkSw 0 (Some 1) false [(txt "f", SubAct i)] (txt "f()") [] (Held (RInt 0)) in
  switch_eq (sw 2) (sw 3) = true
  /\ match switch_record (fun _ => None) (sw 2), switch_record (fun _ => None) (sw 3) with
     | Some x, Some y => x <> y | _, _ => False end.
Proof. split; [reflexivity|]. vm_compute. discriminate. Qed.

(** ** DefineMultiple *)
Definition define_ok (a : define) : Prop := unique (df_props a).

Theorem C81_define_equivalence : forall veq,
  equivalence (fun _ => True) veq -> equivalence define_ok (define_eq veq).
Proof.
  intros veq (R & S & T).
  assert (I : forall a b, define_ok a -> define_ok b ->
    (define_eq veq a b = true <->
     df_feature a = df_feature b /\ df_first a = df_first b /\ df_count a = df_count b
     /\ same_entries (Forall2 (fun v w => veq v w = true)) (df_props a) (df_props b))).
  { intros a b Ua Ub. unfold define_eq.
    rewrite !andb_true_iff, !Z.eqb_eq, (dict_eq_same String.eqb string_decides _ _ _ Ua Ub).
    assert (Q : same_entries (fun v w => list_eq veq v w = true) (df_props a) (df_props b)
      <-> same_entries (Forall2 (fun v w => veq v w = true)) (df_props a) (df_props b)).
    { split; intros (m & P & F); exists m; (split; [exact P|]); revert F; apply Forall2_imp;
        intros p q [E H]; (split; [exact E|]); now apply list_eq_Forall2. }
    rewrite Q. tauto. }
  assert (Rl : forall l, Forall2 (fun v w => veq v w = true) l l) by (induction l; constructor; auto).
  assert (Sl : forall l m, Forall2 (fun v w => veq v w = true) l m -> Forall2 (fun v w => veq v w = true) m l).
  { intros l m F. apply F2_flip in F. revert F. apply Forall2_imp. intros x y H. now rewrite S. }
  split; [|split].
  - intros a Ua. apply I; auto. repeat (split; [reflexivity|]). apply same_entries_refl. auto.
  - intros a b Ua Ub. apply eq_true_iff_eq. rewrite !I by auto.
    split; intros (A & B & C & D); repeat (split; [congruence|]); apply same_entries_sym in D;
      destruct D as (m & P & F); exists m; (split; [exact P|]); revert F; apply Forall2_imp; intros p q [E H]; auto.
  - intros a b c Ua Ub Uc. rewrite !I by auto.
    intros (A & B & C & D) (A' & B' & C' & D'). repeat (split; [congruence|]).
    revert D D'. apply same_entries_trans. intros x y z _ _ _ F G.
    apply (F2_trans _ _ _ _ _ _ F G). intros u v w _ _ _ H K. now apply (T u v w).
Qed.

(** Equal definitions write the same record, up to the order of the properties,
    if equal values write the same bytes. *)
Theorem C81_define_record : forall veq a b x,
  (forall f v w, veq v w = true -> encode_value f v = encode_value f w) ->
  define_ok a -> define_ok b -> define_eq veq a b = true -> define_data a = Some x ->
  exists y, define_data b = Some y /\ same_blocks x y.
Proof.
  intros veq a b x V Ua Ub E R. unfold define_eq in E.
  rewrite !andb_true_iff, !Z.eqb_eq, (dict_eq_same String.eqb string_decides _ _ _ Ua Ub) in E.
  destruct E as [[[A B] C] (m & P & F)].
  unfold define_data in *. rewrite <- A, <- B, <- C.
  assert (L : len (df_props a) = len (df_props b)).
  { unfold len. f_equal. rewrite (F2_length _ _ _ F). symmetry. now apply Permutation_length. }
  rewrite <- L.
  destruct (concat_opt [pack_B 0; _; _; _; _; _]) as [h|]; [|discriminate]. cbn [bind] in *.
  destruct (concat_opt (map _ (df_props a))) as [e|] eqn:Ee; [|discriminate]. cbn [bind] in R. injection R as <-.
  assert (F' : Forall2 (fun p q => encode_prop (df_feature a) (df_count a) p = encode_prop (df_feature a) (df_count a) q) (df_props a) m).
  { revert F. apply Forall2_imp. intros [k v] [k' w] [Ek H]. cbn in Ek, H. subst k'. unfold encode_prop; cbn [fst snd].
    destruct (by_name (df_feature a) k) as [[code f]|]; [|reflexivity]. cbn [bind].
    destruct (mk_bytes [code]); [|reflexivity]. cbn [bind].
    assert (Q : encode_values (Z.to_nat (df_count a)) f v = encode_values (Z.to_nat (df_count a)) f w).
    { clear -V H. generalize (Z.to_nat (df_count a)) as n. intro n. revert v w H.
      induction n as [|n IH]; intros v w H; [reflexivity|].
      destruct v as [|x v], w as [|y w]; cbn in H; try discriminate; [reflexivity|].
      apply andb_true_iff in H as [H1 H2]. cbn [encode_values]. now rewrite (V f x y H1), (IH v w H2). }
    now rewrite Q. }
  destruct (blocks_same _ (encode_prop (df_feature a) (df_count a)) _ _ _ _ F' P Ee) as (bs & bs' & _ & -> & E2 & Q).
  rewrite E2. cbn [bind]. eexists; split; [reflexivity|].
  exists h, bs, bs', []. rewrite !app_nil_r. auto.
Qed.

(** The condition on the values holds for ints, bytes, tuples and lists.  (It
    does not for a value that is a dictionary with several entries: those are
    equal in any order, and are written in their own order.) *)
Definition plain_eq (v w : pv) : bool :=
  match v, w with
  | VInt a, VInt b => a =? b
  | VBytes a, VBytes b => bytes_eq a b
  | VTuple a, VTuple b => list_eq Z.eqb a b
  | VList a, VList b => list_eq Z.eqb a b
  | _, _ => false
  end.
Lemma plain_values : forall f v w, plain_eq v w = true -> encode_value f v = encode_value f w.
Proof.
  intros f v w H. enough (v = w) by congruence.
  destruct v, w; cbn in H; try discriminate.
  - apply Z.eqb_eq in H; congruence.
  - apply bytes_decides in H; congruence.
  - apply (list_eq_decides _ Z_decides) in H; congruence.
  - apply (list_eq_decides _ Z_decides) in H; congruence.
Qed.

(** ** SetProperties *)
Definition props_ok (l : list (pkey * pval)) : Prop := tree_ok (PDict l).

Theorem C81_properties : forall a b, props_ok a -> props_ok b ->
  (props_eq a b = true <-> reordered (PDict a) (PDict b)).
Proof. intros a b Ka Kb. now apply tree_eq_reordered. Qed.

Theorem C81_properties_equivalence : equivalence props_ok props_eq.
Proof.
  split; [|split].
  - intros a K. apply C81_properties; auto. apply reordered_refl.
  - intros a b Ka Kb. apply eq_true_iff_eq. rewrite !C81_properties by auto. split; apply reordered_sym.
  - intros a b c Ka Kb Kc. rewrite !C81_properties by auto. apply reordered_trans.
Qed.

(** Equal trees are both written or both refused, and the records have the
    same bytes, up to the order of the entries. *)
Theorem C81_properties_record : forall a b x, props_ok a -> props_ok b -> props_eq a b = true ->
  action14_data a = Some x -> exists y, action14_data b = Some y /\ Permutation x y.
Proof.
  intros a b x Ka Kb E R. apply (C81_properties a b Ka Kb) in E. unfold action14_data in *.
  destruct (enc_rec None (PDict a)) as [u|] eqn:Eu; [|discriminate]. cbn [bind] in R. injection R as <-.
  destruct (enc_reordered _ _ E None u Eu) as (y & -> & P). cbn [bind]. eexists; split; [reflexivity|]. now constructor.
Qed.

(** ** Examples *)
Example C81_two_maps :
  let a := mkM 0 [7] [(0, Held (RRef 3)); (255, Held (RInt 9))] (Held (RAct 1)) false in
  let b := mkM 0 [7] [(255, Held (RRef 32777)); (0, Held (RAct 3))] (Held (RRef 1)) false in
  map3_ok a /\ map3_ok b /\ map3_eq a b = true
  /\ map3_record a = Some [3; 0; 1; 7; 2; 0; 3; 0; 255; 9; 128; 1; 0]
  /\ map3_record b = Some [3; 0; 1; 7; 2; 255; 9; 128; 0; 3; 0; 1; 0].
Proof.
  cbv zeta. split; [|split; [|split; [|split]]]; try reflexivity.
  - unfold map3_ok, unique; cbn. repeat (apply NoDup_cons; [cbn; lia|]). apply NoDup_nil.
  - unfold map3_ok, unique; cbn. repeat (apply NoDup_cons; [cbn; lia|]). apply NoDup_nil.
Qed.
Example C81_two_definitions :
  let a := mkDef 0 5 1 [("misc_flags", [VInt 2]); ("max_speed", [VInt 100])] in
  let b := mkDef 0 5 1 [("max_speed", [VInt 100]); ("misc_flags", [VInt 2])] in
  define_ok a /\ define_ok b /\ define_eq plain_eq a b = true
  /\ define_eq plain_eq a (mkDef 0 5 1 [("misc_flags", [VInt 2]); ("max_speed", [VInt 101])]) = false
  /\ match define_data a, define_data b with Some x, Some y => same_blocks x y | _, _ => False end.
Proof.
  cbv zeta.
  assert (U1 : define_ok (mkDef 0 5 1 [("misc_flags", [VInt 2]); ("max_speed", [VInt 100])])).
  { unfold define_ok, unique; cbn. apply NoDup_cons; [cbn; intros [E|[]]; discriminate|]. apply NoDup_cons; [cbn; tauto|]. apply NoDup_nil. }
  assert (U2 : define_ok (mkDef 0 5 1 [("max_speed", [VInt 100]); ("misc_flags", [VInt 2])])).
  { unfold define_ok, unique; cbn. apply NoDup_cons; [cbn; intros [E|[]]; discriminate|]. apply NoDup_cons; [cbn; tauto|]. apply NoDup_nil. }
  repeat (split; [assumption || reflexivity|]).
  destruct (define_data (mkDef 0 5 1 [("misc_flags", [VInt 2]); ("max_speed", [VInt 100])])) as [x|] eqn:E; [|discriminate E].
  destruct (C81_define_record plain_eq _ _ x plain_values U1 U2 eq_refl E) as (y & -> & H). exact H.
Qed.
Example C81_maps_differ :
  map3_eq (mkM 0 [7] [(0, Held (RRef 3))] (Held (RAct 1)) false) (mkM 0 [7] [(0, Held (RRef 4))] (Held (RAct 1)) false) = false
  /\ map3_eq (mkM 0 [7] [(0, Held (RRef 3))] (Held (RAct 1)) false) (mkM 0 [7] [(1, Held (RRef 3))] (Held (RAct 1)) false) = false
  /\ map3_eq (mkM 0 [7] [(0, Held (RRef 3))] (Held (RAct 1)) false) (mkM 0 [7] [(0, Held (RRef 3)); (1, Held (RRef 3))] (Held (RAct 1)) false) = false
  /\ map3_eq (mkM 0 [7] [] (Held (RAct 1)) false) (mkM 0 [7] [] (Held (RAct 1)) true) = false.
Proof. repeat split. Qed.
Example C81_switches :
  let sw r := mkSw 0 (Some 1) false [] (txt "1 + 2") [mkR 0 4 r] (Held (RInt 0)) in
  switch_eq (sw (Held (RInt 5))) (sw (Held (RRef 32773))) = true
  /\ switch_eq (sw (Held (RInt 5))) (sw (Held (RAct 5))) = false
  /\ match switch_record (fun _ => None) (sw (Held (RInt 5))) with Some _ => True | None => False end.
Proof. split; [reflexivity|]. split; [reflexivity|]. vm_compute. exact Logic.I. Qed.
Example C81_tree :
  let a := [(KInt 1, PDict [(KRaw [78], PText 127 [65]); (KRaw [86], PInt 8)]); (KInt 2, PList [PStr [66]])] in
  let b := [(KInt 2, PList [PStr [66]]); (KInt 1, PDict [(KRaw [86], PInt 8); (KRaw [78], PText 127 [65])])] in
  props_ok a /\ props_eq a b = true /\ props_eq a (tl a) = false
  /\ props_eq a [(KInt 1, PDict [(KRaw [78], PText 127 [65]); (KRaw [86], PInt 9)]); (KInt 2, PList [PStr [66]])] = false.
Proof.
  cbv zeta. split; [|repeat split].
  apply TO_dict.
  - unfold unique; cbn. apply NoDup_cons; [cbn; intros [E|[]]; discriminate|]. apply NoDup_cons; [cbn; tauto|]. apply NoDup_nil.
  - apply Forall_cons; [|apply Forall_cons; [|apply Forall_nil]]; cbn.
    + apply TO_dict.
      * unfold unique; cbn. apply NoDup_cons; [cbn; intros [E|[]]; discriminate|]. apply NoDup_cons; [cbn; tauto|]. apply NoDup_nil.
      * apply Forall_cons; [apply TO_text|]. apply Forall_cons; [apply TO_int|]. apply Forall_nil.
    + apply TO_list. apply Forall_cons; [apply TO_str|]. apply Forall_nil.
Qed.

Print Assumptions C81_references.
Print Assumptions C81_strings.
Print Assumptions C81_description.
Print Assumptions C81_map_equivalence.
Print Assumptions C81_map_record.
Print Assumptions C81_map_record_ordered.
Print Assumptions C81_map_no_ids_refuted.
Print Assumptions C81_map_unresolved_refuted.
Print Assumptions C81_switch_equivalence.
Print Assumptions C81_switch_record.
Print Assumptions C81_switch_subroutines_refuted.
Print Assumptions C81_define_equivalence.
Print Assumptions C81_define_record.
Print Assumptions C81_properties.
Print Assumptions C81_properties_equivalence.
Print Assumptions C81_properties_record.
