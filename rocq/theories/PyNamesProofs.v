(** The names used by the printed statements. *)
From Coq Require Import ZArith List Bool Lia String.
From Verif Require Import Base BaseFacts CommonModel RecordsModel Action14Model DecodeModel ParserModel GenPyModel PyValue SpecPython PyTextModel PyCtorModel SpecPyText
  PyReadProofs PyMonoProofs PyIndentProofs PyStripProofs PyPartsProofs PyCleanProofs PyStmtProofs PyTextProofs PyBackProofs.
Import ListNotations.
Open Scope string_scope.
Open Scope list_scope.
Open Scope Z_scope.

Lemma flat_ext {A B} (f g : A -> list B) l : Forall (fun x => f x = g x) l -> flat_map f l = flat_map g l.
Proof. intros F. induction F as [|x l H F IH]; [reflexivity|]. cbn [flat_map]. now rewrite H, IH. Qed.
Lemma flat_map_map {A B C} (f : A -> B) (g : B -> list C) l : flat_map g (map f l) = flat_map (fun x => g (f x)) l.
Proof. induction l as [|x l IH]; [reflexivity|]. cbn. now rewrite IH. Qed.
Lemma names_normv : forall v, names (normv v) = names v.
Proof.
  induction v using py_ind2; cbn [normv names]; try reflexivity.
  - rewrite flat_map_map. apply flat_ext. exact H.
  - rewrite flat_map_map. apply flat_ext. exact H.
  - rewrite flat_map_map. apply flat_ext. eapply Forall_impl; [|exact H]. intros e [H1 H2]. cbn [fst snd]. now rewrite H1, H2.
  - exact IHv.
  - rewrite IHv, flat_map_map. f_equal. apply flat_ext. exact H.
  - now rewrite IHv1, IHv2.
Qed.
Lemma flat_nil {A B} (f : A -> list B) l : Forall (fun x => f x = []) l -> flat_map f l = [].
Proof. intros F. induction F as [|x l H F IH]; [reflexivity|]. cbn [flat_map]. now rewrite H, IH. Qed.
Lemma literal_names : forall v, literal v = true -> names v = [].
Proof.
  induction v using py_ind2; intros W; cbn [literal names] in *; try reflexivity; try discriminate; apply flat_nil; rewrite forallb_forall in W; rewrite Forall_forall in H |- *; intros x I.
  - apply H; [exact I|apply W, I].
  - apply H; [exact I|apply W, I].
  - specialize (W x I). apply andb_prop in W as [A B]. destruct (H x I) as [HA HB]. now rewrite (HA A), (HB B).
Qed.
Definition from (own : list bytes) (v : py) : Prop := incl (names v) (PROGRAM_NAMES ++ own).
Lemma from_own own v : incl (names v) own -> from own v.
Proof. intros I x H. apply in_or_app. right. apply I, H. Qed.
Lemma from_nil own v : names v = [] -> from own v.
Proof. unfold from. intros ->. apply incl_nil_l. Qed.
Lemma from_feature own f : opt_feature f -> from own (feature_py f).
Proof.
  intros F. destruct f as [f|]; [|apply from_nil; reflexivity]. cbn in F. unfold is_feature in F. unfold from, feature_py. cbn [names].
  intros x [<-|[]]. apply in_or_app. left. unfold PROGRAM_NAMES. apply in_or_app. right. apply in_or_app. left. apply nth_In. change (List.length FEATURE_CONSTANTS) with 21%nat. lia.
Qed.
Lemma from_expr own e : incl (ref_names e) own -> from own (expr_py e).
Proof.
  intros I x H. apply in_or_app. destruct e as [y|[v|]|v|n]; cbn in H, I.
  - right. apply I, H.
  - destruct H as [<-|[]]. left. vm_compute. tauto.
  - destruct H as [<-|[]]. left. vm_compute. tauto.
  - destruct H as [<-|[]]. left. vm_compute. tauto.
  - contradiction.
Qed.
Lemma in_grf : In (txt "grf") PROGRAM_NAMES.
Proof. right. left. reflexivity. Qed.
Lemma climate_names n : incl (names (climate_py n)) [txt "grf"].
Proof.
  unfold climate_py. destruct (n =? 0); [apply incl_refl|]. destruct (n =? 15); [apply incl_refl|]. destruct (negb _); [apply incl_nil_l|].
  destruct (climates_of n) as [|x l]; [apply incl_nil_l|].
  assert (T : incl (names (climate x)) [txt "grf"]) by (apply incl_refl). revert T. generalize (climate x).
  induction l as [|y l IH]; intros a T; [exact T|]. cbn [map fold_left]. apply IH. cbn [names]. apply incl_app; [exact T|apply incl_refl].
Qed.
Lemma from_pvalue own v : incl (names (value_of v)) own -> from own (pvalue_py v).
Proof.
  intros I. destruct v as [v|n]; [apply from_own, I|]. intros x H. apply in_or_app. left. apply climate_names in H. destruct H as [<-|[]]. apply in_grf.
Qed.
Lemma from_list {A} own (f : A -> py) (l : list A) : Forall (fun x => from own (f x)) l -> incl (flat_map names (map f l)) (PROGRAM_NAMES ++ own).
Proof. intros F. induction F as [|x l H F IH]; [apply incl_nil_l|]. cbn [map flat_map]. apply incl_app; assumption. Qed.
Lemma from_dict {A} own (k f : A -> py) (l : list A) : Forall (fun x => from own (k x) /\ from own (f x)) l -> from own (YDict (map (fun e => (k e, f e)) l)).
Proof. intros F. unfold from. cbn [names]. induction F as [|x l [H1 H2] F IH]; [apply incl_nil_l|]. cbn [map flat_map fst snd]. apply incl_app; [apply incl_app|]; assumption. Qed.
Lemma incl_flat {A} (f : A -> list bytes) l : Forall (fun x => incl (f x) (flat_map f l)) l.
Proof. apply Forall_forall. intros x I y H. apply in_flat_map. exists x. auto. Qed.
Lemma ref_from own r : Forall (fun p => from own (p_val p)) (ref_piece r).
Proof. destruct r; [constructor; [apply from_nil; reflexivity|constructor]|constructor]. Qed.
Lemma from_int own o : from own (opt_int o). Proof. apply from_nil. now destruct o. Qed.
Lemma ints_names l : flat_map names (map YInt l) = [].
Proof. rewrite flat_map_map. apply flat_nil, Forall_forall. reflexivity. Qed.
Lemma key_names k : names (key_py k) = []. Proof. now destruct k. Qed.
Ltac fr := cbn [s_args block open_block spaced_block args1 args2]; repeat (apply Forall_cons || apply Forall_nil || (apply Forall_app; split)); cbn [p_val pv pt pp_piece];
  try (apply from_nil; reflexivity); try (apply from_feature; assumption); try (apply ref_from); try (apply from_int).
Lemma parts_names pp a s : printable a -> parts pp a = Some s -> Forall (fun p => from (own_names a) (p_val p)) (s_args s) /\ s_cls s = class_name a.
Proof.
  intros H P. destruct a; cbn [printable own_names] in *; cbn [parts] in P; try (apply some_inj in P; subst s; split; [|reflexivity]).
  - destruct H as (H1 & H2 & H3). fr. apply from_dict. eapply Forall_impl; [|apply incl_flat]. intros e V. split; [apply from_nil; reflexivity|apply from_pvalue, V].
  - destruct H as (H1 & H2 & H3). fr. apply from_dict. eapply Forall_impl; [|apply incl_flat]. intros e V. split; [apply from_nil; reflexivity|].
    apply from_list. eapply Forall_impl; [|apply incl_flat]. intros v W. apply from_pvalue. intros x I. apply V, W, I.
  - fr.
  - fr.
  - fr; apply from_nil, ints_names.
  - destruct H as (H1 & H2 & H3). fr; apply from_own; [apply incl_appl|apply incl_appr]; apply incl_refl.
  - destruct H as (H1 & H2 & H3). fr; apply from_own; [apply incl_appl|apply incl_appr]; apply incl_refl.
  - destruct H as (H1 & H2 & H3 & H4). fr.
    + unfold code_piece. destruct (existsb _ _); apply from_nil; reflexivity.
    + apply from_dict. eapply Forall_impl; [|apply (incl_flat (fun e => ref_names (snd e)))]. intros e R. split; [apply from_nil, key_names|apply from_expr, incl_appl, R].
    + apply from_expr, incl_appr, incl_refl.
  - destruct H as (H1 & H2 & H3). fr. apply from_list. eapply Forall_impl; [|apply incl_flat]. intros e R. apply from_expr, R.
  - fr; apply from_own; [apply incl_appl, incl_refl|apply incl_appr, incl_appl, incl_refl|apply incl_appr, incl_appr, incl_refl].
  - destruct H as (H1 & H2 & H3). fr.
    + apply from_nil, ints_names.
    + apply from_dict. eapply Forall_impl; [|apply (incl_flat (fun e => ref_names (snd e)))]. intros e R. split; [apply from_nil; reflexivity|apply from_expr, incl_appl, R].
    + apply from_expr, incl_appr, incl_refl.
  - destruct H as (H1 & H2 & H3). fr. apply from_nil. cbn [names]. rewrite flat_map_map. apply flat_nil, Forall_forall. reflexivity.
  - fr.
  - fr. apply from_nil. cbn [names]. rewrite flat_map_map. apply flat_nil, Forall_forall. intros [[x y] z] _. reflexivity.
  - destruct (a7_value a) as [v|v]; [|contradiction]. destruct (if v <=? 4294967295 then value_comment v else Some []) as [cm|]; [|discriminate].
    cbn [bind] in P. apply some_inj in P. subst s. split; [|reflexivity]. fr.
  - fr.
  - fr. apply from_nil. cbn [names]. rewrite flat_map_map. apply flat_nil, Forall_forall. reflexivity.
  - fr; apply from_nil; [destruct (ab_message a); reflexivity|destruct (ab_text_param a); reflexivity|apply ints_names].
  - fr.
  - destruct (match ad_value a with DVNone => Some [] | DVNum n => value_comment n | DVRaw _ => None end) as [cm|]; [|discriminate].
    cbn [bind] in P. apply some_inj in P. subst s. split; [|reflexivity]. fr. apply from_nil. destruct (ad_value a); reflexivity.
  - fr.
  - fr.
  - fr.
  - fr. apply from_nil, literal_names. exact (dval_literal (DDict l) H).
Qed.
Lemma names_read pp a s e : prints pp -> printable a -> code_of pp a = Some s -> Reads s e ->
  exists st, parts pp a = Some st /\ names e = names (stmt_ast (s_cls st) (s_args st)).
Proof.
  intros P H C R. destruct (parts_ok pp a P H) as (st & E & S). exists st. split; [exact E|]. unfold code_of in C. rewrite parts_text, E in C. cbn [option_map bind] in C. apply some_inj in C. subst s.
  destruct S as (S1 & S2 & S3 & S4 & S5 & S6 & S7 & S8 & S9 & S10).
  destruct (stmt_reads (s_lead st) (s_cls st) (s_args st) (s_tail st) (s_trail st) S1 S2 S3 S4 S5 S6 S7 S8 S9 S10) as (v & R' & V). fold (text_of st) in R'.
  rewrite (Reads_fun _ _ _ R R'). rewrite <- names_normv, V, names_normv. reflexivity.
Qed.
Theorem names_bound pp a s e : prints pp -> printable a -> code_of pp a = Some s -> Reads s e ->
  incl (names e) (class_name a :: PROGRAM_NAMES ++ own_names a).
Proof.
  intros P H C R. destruct (names_read pp a s e P H C R) as (st & E & ->). unfold stmt_ast. cbn [names app].
  destruct (parts_names pp a st H E) as [F ->]. intros x [<-|I]; [left; reflexivity|]. right. rewrite flat_map_map in I. apply in_flat_map in I as (p & I & J). cbn [snd] in J.
  rewrite Forall_forall in F. apply (F p I), J.
Qed.
