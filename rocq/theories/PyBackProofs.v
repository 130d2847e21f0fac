(** Reading a printed statement back gives the action. *)
From Coq Require Import ZArith List Bool Lia String.
From Verif Require Import Base BaseFacts CommonModel RecordsModel Action14Model DecodeModel ParserModel GenPyModel PyValue SpecPython PyTextModel PyCtorModel SpecPyText
  PyReadProofs PyMonoProofs PyIndentProofs PyStripProofs PyPartsProofs PyCleanProofs PyStmtProofs PyTextProofs GenPyProofs LexNormProofs.
Import ListNotations.
Open Scope string_scope.
Open Scope list_scope.
Open Scope Z_scope.

(** ** Values *)
Lemma as_feature_py f : is_feature f -> as_feature (feature_py (Some f)) = Some f.
Proof.
  intros H. unfold is_feature in H. assert (E : exists n, f = Z.of_nat n /\ (n < 21)%nat) by (exists (Z.to_nat f); lia). destruct E as (n & -> & L).
  do 21 (destruct n as [|n]; [reflexivity|]). lia.
Qed.
Lemma as_opt_feature f : opt_feature f -> as_opt as_feature (feature_py f) = Some f.
Proof. destruct f as [f|]; [|reflexivity]. intros H. pose proof (as_feature_py f H) as E. cbn [feature_py] in *. unfold as_opt. rewrite E. reflexivity. Qed.
Lemma as_opt_int o : as_opt as_int (opt_int o) = Some o. Proof. destruct o; reflexivity. Qed.
Lemma as_opt_bytes o : as_opt as_bytes (opt_bytes o) = Some o. Proof. destruct o; reflexivity. Qed.
Lemma map_o_map {A B C} (f : B -> option C) (g : A -> B) (h : A -> C) l : Forall (fun x => f (g x) = Some (h x)) l -> map_o f (map g l) = Some (map h l).
Proof. intros F. induction F as [|x l E F IH]; [reflexivity|]. cbn [map map_o]. rewrite E. cbn [bind]. rewrite IH. reflexivity. Qed.
Lemma map_o_id {A B} (f : B -> option A) (g : A -> B) l : (forall x, f (g x) = Some x) -> map_o f (map g l) = Some l.
Proof. intros H. rewrite (map_o_map f g (fun x => x)); [rewrite map_id; reflexivity|]. apply Forall_forall. intros x _. apply H. Qed.
Lemma as_expr_py e : as_expr (expr_py e) = Some e.
Proof. destruct e as [x|[v|]|v|n]; reflexivity. Qed.
Lemma as_key_py k : as_key (key_py k) = Some k. Proof. destruct k; reflexivity. Qed.
Lemma as_ints l : as_list as_int (ints l) = Some l.
Proof. apply (map_o_id as_int YInt). reflexivity. Qed.
Lemma as_climate n : as_pvalue (climate_py n) = Some (VRepr (YInt n)).
Proof.
  unfold climate_py. destruct (Z.eqb_spec n 0) as [-> | N0]; [reflexivity|]. destruct (Z.eqb_spec n 15) as [-> | N15]; [reflexivity|].
  destruct ((0 <? n) && (n <? 15)) eqn:R; cbn [negb]; [|reflexivity].
  assert (E : n = 1 \/ n = 2 \/ n = 3 \/ n = 4 \/ n = 5 \/ n = 6 \/ n = 7 \/ n = 8 \/ n = 9 \/ n = 10 \/ n = 11 \/ n = 12 \/ n = 13 \/ n = 14) by lia.
  repeat (destruct E as [-> | E]; [reflexivity|]). subst n. reflexivity.
Qed.
Lemma as_pvalue_py v : value_ok v -> as_pvalue (pvalue_py v) = Some (VRepr (value_of v)).
Proof.
  destruct v as [v|n]; [|intros _; apply as_climate]. intros [W A]. cbn [pvalue_py value_of]. destruct v; try reflexivity; [contradiction|discriminate].
Qed.
Lemma as_dict_distinct {A V} (f : py -> option V) (key : A -> bytes) (g : A -> py) (h : A -> V) (l : list A) :
  NoDup (map key l) -> Forall (fun x => f (g x) = Some (h x)) l ->
  as_dict as_text f (YDict (map (fun x => (YStr (key x), g x)) l)) = Some (map (fun x => (key x, h x)) l).
Proof.
  intros N F. unfold as_dict, as_entries.
  rewrite (map_o_map _ (fun x => (YStr (key x), g x)) (fun x => (key x, h x))).
  - cbn [bind]. rewrite dict_of_distinct; [reflexivity|exact same_iff|]. rewrite map_map. exact N.
  - eapply Forall_impl; [|exact F]. intros x E. cbn [fst snd as_text bind]. rewrite E. reflexivity.
Qed.
Fixpoint as_dval_py (v : dval) : dval_ok v -> as_dval (dval_py v) = Some v.
Proof.
  destruct v as [l|l]; cbn [dval_ok dval_py as_dval].
  - intros [N H].
    match goal with |- bind (?g _) _ = _ => assert (E : g (map (fun e => (YBytes (fst e), dval_py (snd e))) l) = Some l) end.
    { clear N. induction l as [|[k v] l IH]; [reflexivity|]. destruct H as (B & V & R). cbn [map fst snd as_bytes bind]. rewrite (as_dval_py v V). cbn [bind]. rewrite (IH R). reflexivity. }
    rewrite E. cbn [bind]. rewrite dict_of_distinct; [reflexivity|exact same_iff|exact N].
  - intros _. rewrite (map_o_id as_item item_py); [reflexivity|]. intros [b|x b]; reflexivity.
Qed.
Lemma as_patch_py p : as_patch (patch_py p) = Some p.
Proof. destruct p as [[a b] c]. reflexivity. Qed.

(** ** The action read *)
Definition image (code : bytes) (a : paction) : paction :=
  match a with
  | PDefine f i p => PDefine f i (map (fun e => (fst e, VRepr (value_of (snd e)))) p)
  | PDefineMultiple f i c p => PDefineMultiple f i c (map (fun e => (fst e, map (fun v => VRepr (value_of v)) (snd e))) p)
  | PSwitch f r s _ l d => PSwitch f r s code l d
  | a => a
  end.
Definition code_of_switch (a : paction) : bytes := match a with PSwitch _ _ _ c _ _ => c | _ => [] end.
Definition multiline (a : paction) : bool := match a with PSwitch _ _ _ c _ _ => existsb (Z.eqb 10) c | _ => false end.
(** The same call with another text of the code. *)
Definition with_code (code : py) (args : list piece) : list (bytes * py) :=
  map (fun p => (p_name p, if same (p_name p) (txt "code") then code else p_val p)) args.
Lemma as_entries_refs {K} (k : py -> option K) (key : K -> py) (l : list (K * GenPyModel.expr)) : (forall x, k (key x) = Some x) ->
  as_entries k as_expr (YDict (map (fun e => (key (fst e), expr_py (snd e))) l)) = Some l.
Proof.
  intros H. unfold as_entries. rewrite (map_o_map _ (fun e => (key (fst e), expr_py (snd e))) (fun e => e)); [rewrite map_id; reflexivity|].
  apply Forall_forall. intros [x e] _. cbn [fst snd]. rewrite H. cbn [bind]. rewrite as_expr_py. reflexivity.
Qed.
Definition switch_args (f r : option Z) (related : bool) (cv : py) (ranges : list (key * GenPyModel.expr)) (default : GenPyModel.expr) : list (bytes * py) :=
  (txt "feature", feature_py f) :: match r with None => [] | Some i => [(txt "ref_id", YInt i)] end ++
  [(txt "related_scope", YBool related); (txt "code", cv); (txt "ranges", YDict (map (fun e => (key_py (fst e), expr_py (snd e))) ranges)); (txt "default", expr_py default)].
Ltac ctor := cbn [make bind]; rewrite ?as_feature_py, ?as_opt_feature, ?as_opt_int, ?as_opt_bytes, ?as_expr_py, ?as_ints by assumption; cbn [as_int as_bool as_bytes as_text bind].
Lemma construct_switch f r related code cv ranges default : opt_feature f -> as_text cv = Some code ->
  construct (YCall (YName (txt "Switch")) (switch_args f r related cv ranges default)) = Some (PSwitch f r related code ranges default).
Proof.
  intros F C.
  transitivity (make CSwitch [cv; YDict (map (fun e => (key_py (fst e), expr_py (snd e))) ranges); expr_py default; feature_py f; opt_int r; YBool related; YNone]).
  { destruct r; reflexivity. }
  cbn [make]. rewrite C. cbn [bind]. rewrite (as_entries_refs as_key key_py) by apply as_key_py. cbn [bind]. ctor. reflexivity.
Qed.
Theorem construct_back pp a s : printable a -> parts pp a = Some s -> multiline a = false ->
  construct (stmt_ast (s_cls s) (s_args s)) = Some (image (code_of_switch a) a).
Proof.
  intros H P M. destruct a; cbn [printable] in H; cbn [parts] in P; try (apply some_inj in P; subst s).
  - destruct H as (H1 & H2 & H3).
    transitivity (make CDefine [feature_py (Some feature); YInt id; YDict (map (fun e => (YStr (fst e), pvalue_py (snd e))) props)]); [reflexivity|].
    ctor. rewrite (as_dict_distinct as_pvalue fst (fun e => pvalue_py (snd e)) (fun e => VRepr (value_of (snd e)))); [reflexivity|exact H2|].
    eapply Forall_impl; [|exact H3]. intros e [_ V]. apply as_pvalue_py, V.
  - destruct H as (H1 & H2 & H3).
    transitivity (make CDefineMultiple [feature_py (Some feature); YInt first_id; YDict (map (fun e => (YStr (fst e), YList (map pvalue_py (snd e)))) props); YInt count]); [reflexivity|].
    ctor. rewrite (as_dict_distinct (as_list as_pvalue) fst (fun e => YList (map pvalue_py (snd e))) (fun e => map (fun v => VRepr (value_of v)) (snd e))); [reflexivity|exact H2|].
    eapply Forall_impl; [|exact H3]. intros e [_ V]. cbn [as_list]. apply map_o_map. eapply Forall_impl; [|exact V]. intros v. apply as_pvalue_py.
  - destruct a as [f sc n fs]. cbn [a1_feature] in H. transitivity (make CAction1 [feature_py (Some f); YInt sc; YInt n; opt_int fs]); [reflexivity|]. ctor. reflexivity.
  - transitivity (make CSpriteSet [feature_py (Some feature); YInt count]); [reflexivity|]. ctor. reflexivity.
  - transitivity (make CGenericSpriteLayout [YTuple (map YInt ent1); YTuple (map YInt ent2); feature_py feature; opt_int ref_id]); [destruct ref_id; reflexivity|].
    ctor. cbn [as_tuple]. rewrite !(map_o_id as_int YInt) by reflexivity. reflexivity.
  - destruct H as (H1 & H2 & H3). transitivity (make CBasicSpriteLayout [ground; building; feature_py feature; opt_int ref_id]); [destruct ref_id; reflexivity|]. ctor. reflexivity.
  - destruct H as (H1 & H2 & H3). transitivity (make CAdvancedSpriteLayout [ground; feature_py feature; opt_int ref_id; buildings; YBool true]); [destruct ref_id; reflexivity|]. ctor. reflexivity.
  - destruct H as (H1 & H2 & H3 & H4). cbn [multiline] in M. transitivity (construct (YCall (YName (txt "Switch")) (switch_args feature ref_id related (YStr code) ranges default))).
    + unfold code_piece. rewrite M. destruct ref_id; reflexivity.
    + apply construct_switch; [exact H1|reflexivity].
  - destruct H as (H1 & H2 & H3).
    transitivity (make CRandomSwitch [YStr scope; YInt triggers; YBool cmp_all; YInt lowest; YList (map expr_py groups); opt_int count; feature_py feature; opt_int ref_id]); [destruct ref_id; reflexivity|].
    ctor. cbn [as_list]. rewrite (map_o_id as_expr expr_py) by apply as_expr_py. cbn [bind]. ctor. reflexivity.
  - transitivity (make CIndustryProductionCallback [inputs; outputs; again; YInt version]); reflexivity.
  - destruct H as (H1 & H2 & H3).
    transitivity (make CAction3 [feature_py (Some feature); ints ids; YDict (map (fun e => (YInt (fst e), expr_py (snd e))) maps); expr_py default; YBool wagon]); [reflexivity|].
    ctor. rewrite (as_entries_refs as_int YInt) by reflexivity. reflexivity.
  - destruct H as (H1 & H2 & H3). destruct a as [f lang off g strs]. cbn [a4_feature a4_strings a4_offset a4_generic] in *.
    transitivity (make CDefineStrings [feature_py (Some f); YInt off; YBool g; YList (map YBytes strs); YInt lang]); [reflexivity|].
    ctor. cbn [as_list]. rewrite (map_o_id as_bytes YBytes) by reflexivity. reflexivity.
  - destruct a as [t c o]. transitivity (make CReplaceNewSprites [YInt t; YInt c; opt_int o]); [reflexivity|]. ctor. reflexivity.
  - transitivity (make CModifySprites [YList (map patch_py l)]); [reflexivity|]. cbn [make as_list]. rewrite (map_o_id as_patch patch_py) by apply as_patch_py. reflexivity.
  - destruct a as [st vr vs c v sk]. cbn [a7_value a7_static a7_var a7_varsize a7_cond a7_skip] in *. destruct v as [v|v]; [|contradiction].
    destruct (if v <=? 4294967295 then value_comment v else Some []) as [cm|]; [|discriminate]. cbn [bind] in P. apply some_inj in P. subst s.
    transitivity (make CIf [YBool st; YInt vr; YInt c; YInt v; YInt sk; opt_int vs]); [reflexivity|]. ctor. cbn [as_if_value bind]. ctor. reflexivity.
  - destruct a as [v g n d]. transitivity (make CSetDescription [YBytes g; YBytes n; YBytes d; YInt v]); reflexivity.
  - transitivity (make CReplaceOldSprites [YList (map (fun s => YTuple [YInt (fst s); YInt (snd s)]) l)]); [reflexivity|].
    cbn [make as_list]. rewrite (map_o_id as_pair (fun s => YTuple [YInt (fst s); YInt (snd s)])); [reflexivity|]. intros [x y]. reflexivity.
  - destruct a as [sv lang m t p]. transitivity (make CErrorMessage [YInt sv; YInt lang; msg_py m; opt_bytes t; ints p]); [reflexivity|]. ctor.
    destruct m; cbn [msg_py as_msg bind]; ctor; reflexivity.
  - reflexivity.
  - destruct a as [t o u s1 s2 v]. cbn [ad_value ad_target ad_op ad_if_undefined ad_src1 ad_src2] in *.
    destruct (match v with DVNone => Some [] | DVNum n => value_comment n | DVRaw _ => None end) as [cm|]; [|discriminate]. cbn [bind] in P. apply some_inj in P. subst s.
    transitivity (make CComputeParameters [YInt t; YInt o; YBool u; YInt s1; YInt s2; d_value_py v]); [reflexivity|]. destruct v; reflexivity.
  - destruct a as [l c]. reflexivity.
  - reflexivity.
  - destruct a as [g n]. reflexivity.
  - transitivity (make CSetProperties [dval_py (DDict l)]); [reflexivity|]. cbn [make]. rewrite (as_dval_py (DDict l) H). reflexivity.
Qed.

(** ** The statement read *)
Lemma wfp_textless : forall v, wfp v = true -> textless v = true.
Proof.
  induction v using py_ind2; intros W; cbn [wfp textless] in *; try reflexivity; try discriminate.
  - rewrite forallb_forall in W |- *. rewrite Forall_forall in H. intros x I. apply H; [exact I|apply W, I].
  - rewrite forallb_forall in W |- *. rewrite Forall_forall in H. intros x I. apply H; [exact I|apply W, I].
  - rewrite forallb_forall in W |- *. rewrite Forall_forall in H. intros x I. specialize (W x I). apply andb_prop in W as [A B]. destruct (H x I) as [HA HB]. rewrite (HA A), (HB B). reflexivity.
  - destruct v; try discriminate W. reflexivity.
  - apply andb_prop in W as [W W3]. apply andb_prop in W as [W1 _]. apply andb_true_intro. split.
    + destruct v; try discriminate W1; [reflexivity|]. destruct v; try discriminate W1. reflexivity.
    + rewrite forallb_forall in W3 |- *. rewrite Forall_forall in H. intros x I. specialize (W3 x I). apply andb_prop in W3 as [_ B]. apply (H x I B).
Qed.
Lemma literal_textless : forall v, literal v = true -> textless v = true.
Proof.
  induction v using py_ind2; intros W; cbn [literal textless] in *; try reflexivity; try discriminate.
  - rewrite forallb_forall in W |- *. rewrite Forall_forall in H. intros x I. apply H; [exact I|apply W, I].
  - rewrite forallb_forall in W |- *. rewrite Forall_forall in H. intros x I. apply H; [exact I|apply W, I].
  - rewrite forallb_forall in W |- *. rewrite Forall_forall in H. intros x I. specialize (W x I). apply andb_prop in W as [A B]. destruct (H x I) as [HA HB]. rewrite (HA A), (HB B). reflexivity.
Qed.
Lemma climate_textless n : textless (climate_py n) = true.
Proof.
  unfold climate_py. destruct (n =? 0); [reflexivity|]. destruct (n =? 15); [reflexivity|]. destruct (negb _); [reflexivity|].
  destruct (climates_of n) as [|x l]; [reflexivity|]. assert (T : textless (climate x) = true) by reflexivity. revert T. generalize (climate x). induction l as [|y l IH]; intros a T; [exact T|].
  cbn [map fold_left]. apply IH. cbn [textless]. rewrite T. reflexivity.
Qed.
Lemma pvalue_textless v : value_ok v -> textless (pvalue_py v) = true.
Proof. destruct v as [v|n]; [intros [W _]; apply wfp_textless, W|intros _; apply climate_textless]. Qed.
Lemma map_textless {A} (f : A -> py) l : Forall (fun x => textless (f x) = true) l -> forallb textless (map f l) = true.
Proof. intros F. induction F; [reflexivity|]. cbn [map forallb]. rewrite H, IHF. reflexivity. Qed.
Lemma dict_textless {A} (k f : A -> py) l : Forall (fun x => textless (k x) = true /\ textless (f x) = true) l -> textless (YDict (map (fun e => (k e, f e)) l)) = true.
Proof. intros F. cbn [textless]. induction F as [|x l [H1 H2] F IH]; [reflexivity|]. cbn [map forallb fst snd]. rewrite H1, H2, IH. reflexivity. Qed.
Definition plain_args (l : list piece) : Prop := Forall (fun p => textless (p_val p) = true) l.
Lemma ref_textless r : plain_args (ref_piece r).
Proof. destruct r; repeat constructor. Qed.
Ltac plain := unfold plain_args; cbn [s_args block open_block spaced_block]; repeat (apply Forall_cons || apply Forall_nil || (apply Forall_app; split)); cbn [p_val pv pt pp_piece]; try reflexivity.
Lemma parts_textless pp a s : printable a -> parts pp a = Some s -> multiline a = false -> plain_args (s_args s).
Proof.
  intros H P M. destruct a; cbn [printable] in H; cbn [parts] in P; try (apply some_inj in P; subst s).
  - destruct H as (H1 & H2 & H3). plain. apply dict_textless. eapply Forall_impl; [|exact H3]. intros e [_ V]. split; [reflexivity|apply pvalue_textless, V].
  - destruct H as (H1 & H2 & H3). plain. apply dict_textless. eapply Forall_impl; [|exact H3]. intros e [_ V]. split; [reflexivity|].
    cbn [textless]. apply map_textless. eapply Forall_impl; [|exact V]. intros v. apply pvalue_textless.
  - plain. apply wfp_textless, opt_int_wfp.
  - plain.
  - plain; [apply wfp_textless, opt_feature_wfp, H|apply ref_textless|apply wfp_textless, ints_wfp|apply wfp_textless, ints_wfp].
  - destruct H as (H1 & H2 & H3). plain; [apply wfp_textless, opt_feature_wfp, H1|apply ref_textless|apply wfp_textless, H2|apply wfp_textless, H3].
  - destruct H as (H1 & H2 & H3). plain; [apply wfp_textless, opt_feature_wfp, H1|apply ref_textless|apply wfp_textless, H2|apply wfp_textless, H3].
  - destruct H as (H1 & H2 & H3 & H4). cbn [multiline] in M. plain; [apply wfp_textless, opt_feature_wfp, H1|apply ref_textless| | |apply wfp_textless, expr_wfp, H4].
    + unfold code_piece. rewrite M. reflexivity.
    + apply dict_textless. eapply Forall_impl; [|exact H3]. intros e R. split; [apply wfp_textless, key_wfp|apply wfp_textless, expr_wfp, R].
  - destruct H as (H1 & H2 & H3). plain; [apply wfp_textless, opt_feature_wfp, H1|apply ref_textless|apply wfp_textless, opt_int_wfp|].
    cbn [textless]. apply map_textless. eapply Forall_impl; [|exact H3]. intros e R. apply wfp_textless, expr_wfp, R.
  - destruct H as (H1 & H2 & H3). plain; apply wfp_textless; assumption.
  - destruct H as (H1 & H2 & H3). plain; [apply (wfp_textless (ints ids)), ints_wfp| |apply wfp_textless, expr_wfp, H3].
    apply dict_textless. eapply Forall_impl; [|exact H2]. intros e R. split; [reflexivity|apply wfp_textless, expr_wfp, R].
  - plain. cbn [textless]. apply map_textless. apply Forall_forall. reflexivity.
  - plain. apply wfp_textless, opt_int_wfp.
  - plain. cbn [textless]. apply map_textless. apply Forall_forall. intros [[x y] z] _. reflexivity.
  - destruct (a7_value a) as [v|v]; [|contradiction]. destruct (if v <=? 4294967295 then value_comment v else Some []) as [cm|]; [|discriminate].
    cbn [bind] in P. apply some_inj in P. subst s. plain. apply wfp_textless, opt_int_wfp.
  - plain.
  - plain. cbn [textless]. apply map_textless. apply Forall_forall. reflexivity.
  - plain; [destruct (ab_message a); reflexivity|destruct (ab_text_param a); reflexivity|apply (wfp_textless (ints (ab_params a))), ints_wfp].
  - plain.
  - destruct (match ad_value a with DVNone => Some [] | DVNum n => value_comment n | DVRaw _ => None end) as [cm|]; [|discriminate].
    cbn [bind] in P. apply some_inj in P. subst s. plain. destruct (ad_value a); reflexivity.
  - plain.
  - plain.
  - plain.
  - plain. apply literal_textless. exact (dval_literal (DDict l) H).
Qed.

Lemma stmt_textless cls l : plain_args l -> textless (stmt_ast cls l) = true.
Proof. intros F. unfold stmt_ast. cbn [textless andb]. induction F as [|p l H F IH]; [reflexivity|]. cbn [map forallb snd]. rewrite H. exact IH. Qed.
Lemma same_image a : same_action a (image (code_of_switch a) a).
Proof.
  destruct a; cbn [image same_action]; try reflexivity.
  - repeat split. rewrite map_map. apply map_ext. reflexivity.
  - repeat split. rewrite map_map. apply map_ext. intros e. cbn [fst snd]. rewrite map_map. reflexivity.
  - repeat split.
Qed.
(** The code of several lines. *)
Lemma same_args v cls (l : list (bytes * py)) : normv v = normv (YCall (YName cls) l) ->
  exists l', v = YCall (YName cls) l' /\ Forall2 (fun e e' => fst e' = fst e /\ normv (snd e') = normv (snd e) /\ (textless (snd e) = true -> snd e' = snd e)) l l'.
Proof.
  intros E. destruct v; cbn [normv] in E; try discriminate. injection E as E1 E2. destruct v; cbn [normv] in E1; try discriminate. injection E1 as ->. exists args. split; [reflexivity|].
  revert args E2. induction l as [|[x w] l IH]; intros [|[y u] args] E; try discriminate; [constructor|]. cbn [map fst snd] in E. injection E as E1 E2 E3. constructor.
  - cbn [fst snd]. split; [exact E1|]. split; [exact E2|]. intros T. apply (textless_same w T u). symmetry. exact E2.
  - apply IH, E3.
Qed.

Lemma forall2_cons {A B} (R : A -> B -> Prop) a l l' : Forall2 R (a :: l) l' -> exists b m, l' = b :: m /\ R a b /\ Forall2 R l m.
Proof. intros H. inversion H; subst. eauto. Qed.
Lemma forall2_nil {A B} (R : A -> B -> Prop) l' : Forall2 R [] l' -> l' = [].
Proof. intros H. inversion H; subst. reflexivity. Qed.
Lemma switch_back l' f r related code ranges default : opt_feature f -> Forall (fun e => ref_ok (snd e)) ranges -> ref_ok default ->
  Forall2 (fun e e' : bytes * py => fst e' = fst e /\ normv (snd e') = normv (snd e) /\ (textless (snd e) = true -> snd e' = snd e))
    (switch_args f r related (YText (10 :: code)) ranges default) l' ->
  exists y, l' = switch_args f r related (YText y) ranges default /\ norm false y = norm false (10 :: code).
Proof.
  intros HF HR HD F.
  assert (T1 : textless (feature_py f) = true) by (apply wfp_textless, opt_feature_wfp, HF).
  assert (T2 : textless (YDict (map (fun e => (key_py (fst e), expr_py (snd e))) ranges)) = true).
  { apply dict_textless. eapply Forall_impl; [|exact HR]. intros e R. split; [apply wfp_textless, key_wfp|apply wfp_textless, expr_wfp, R]. }
  assert (T3 : textless (expr_py default) = true) by (apply wfp_textless, expr_wfp, HD).
  set (ranges_py := YDict _) in T2. unfold switch_args in *. fold ranges_py in F |- *.
  destruct r as [r|]; cbn [app] in F |- *.
  - apply forall2_cons in F as ([x1 v1] & m1 & -> & (Q1 & N1 & V1) & F); cbn [fst snd] in Q1, N1, V1; specialize (V1 T1).
    apply forall2_cons in F as ([x2 v2] & m2 & -> & (Q2 & N2 & V2) & F); cbn [fst snd] in Q2, N2, V2; specialize (V2 eq_refl).
    apply forall2_cons in F as ([x3 v3] & m3 & -> & (Q3 & N3 & V3) & F); cbn [fst snd] in Q3, N3, V3; specialize (V3 eq_refl).
    apply forall2_cons in F as ([x4 v4] & m4 & -> & (Q4 & N4 & V4) & F); cbn [fst snd] in Q4, N4, V4; clear V4.
    apply forall2_cons in F as ([x5 v5] & m5 & -> & (Q5 & N5 & V5) & F); cbn [fst snd] in Q5, N5, V5; specialize (V5 T2).
    apply forall2_cons in F as ([x6 v6] & m6 & -> & (Q6 & N6 & V6) & F); cbn [fst snd] in Q6, N6, V6; specialize (V6 T3).
    apply forall2_nil in F. destruct v4; cbn [normv] in N4; try discriminate N4. injection N4 as N4.
    subst x1 v1 x2 v2 x3 v3 x4 x5 v5 x6 v6 m6. eexists. split; [reflexivity|exact N4].
  - apply forall2_cons in F as ([x1 v1] & m1 & -> & (Q1 & N1 & V1) & F); cbn [fst snd] in Q1, N1, V1; specialize (V1 T1).
    apply forall2_cons in F as ([x3 v3] & m3 & -> & (Q3 & N3 & V3) & F); cbn [fst snd] in Q3, N3, V3; specialize (V3 eq_refl).
    apply forall2_cons in F as ([x4 v4] & m4 & -> & (Q4 & N4 & V4) & F); cbn [fst snd] in Q4, N4, V4; clear V4.
    apply forall2_cons in F as ([x5 v5] & m5 & -> & (Q5 & N5 & V5) & F); cbn [fst snd] in Q5, N5, V5; specialize (V5 T2).
    apply forall2_cons in F as ([x6 v6] & m6 & -> & (Q6 & N6 & V6) & F); cbn [fst snd] in Q6, N6, V6; specialize (V6 T3).
    apply forall2_nil in F. destruct v4; cbn [normv] in N4; try discriminate N4. injection N4 as N4.
    subst x1 v1  x3 v3 x4 x5 v5 x6 v6 m6. eexists. split; [reflexivity|exact N4].
Qed.
Theorem text_back pp a : prints pp -> printable a ->
  exists s e b, code_of pp a = Some s /\ Reads s e /\ construct e = Some b /\ same_action a b.
Proof.
  intros P H. destruct (parts_ok pp a P H) as (s & E & S). unfold code_of. rewrite parts_text, E. cbn [option_map bind].
  destruct S as (S1 & S2 & S3 & S4 & S5 & S6 & S7 & S8 & S9 & S10).
  destruct (stmt_reads (s_lead s) (s_cls s) (s_args s) (s_tail s) (s_trail s) S1 S2 S3 S4 S5 S6 S7 S8 S9 S10) as (v & R & V). fold (text_of s) in R.
  destruct (multiline a) eqn:M.
  - destruct a; try discriminate M. cbn [multiline] in M. cbn [printable] in H. destruct H as (H1 & H2 & H3 & H4).
    set (args := switch_args feature ref_id related (YText (10 :: code)) ranges default).
    assert (A : stmt_ast (s_cls s) (s_args s) = YCall (YName (txt "Switch")) args).
    { cbn [parts] in E. apply some_inj in E. subst s. unfold code_piece. rewrite M. destruct ref_id; reflexivity. }
    rewrite A in V. destruct (same_args v (txt "Switch") args V) as (l' & -> & F).
    assert (X : exists y, l' = switch_args feature ref_id related (YText y) ranges default /\ norm false y = norm false (10 :: code)).
    { apply (switch_back l' feature ref_id related code ranges default H1); [|exact H4|exact F].
      eapply Forall_impl; [|exact H3]. intros e K. exact K. }
    destruct X as (y & -> & Y). eexists _, _, _. split; [reflexivity|]. split; [exact R|]. split; [apply construct_switch; [exact H1|reflexivity]|].
    cbn [same_action]. repeat split.
    + rewrite (parse_code_norm y (10 :: code) Y). apply parse_code_newline.
    + intros N. exfalso. apply N. apply existsb_exists in M as (c & I & Q). apply Z.eqb_eq in Q. subst c. exact I.
  - assert (v = stmt_ast (s_cls s) (s_args s)).
    { apply textless_same; [apply stmt_textless, (parts_textless pp a s H E M)|symmetry; exact V]. }
    subst v. eexists _, _, _. split; [reflexivity|]. split; [exact R|]. split; [apply (construct_back pp a s H E M)|apply same_image].
Qed.
