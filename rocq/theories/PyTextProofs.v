(** The statements the py methods print, taken apart, and the expressions
    they read as. *)
From Coq Require Import ZArith List Bool Lia String.
From Verif Require Import Base BaseFacts CommonModel RecordsModel Action14Model DecodeModel ParserModel GenPyModel PyValue SpecPython PyTextModel SpecPyText
  PyReadProofs PyMonoProofs PyIndentProofs PyStripProofs PyPartsProofs PyCleanProofs PyStmtProofs JsonProofs.
Import ListNotations.
Open Scope string_scope.
Open Scope list_scope.
Open Scope Z_scope.

Definition nl (n : nat) : bytes := 10 :: repeat 32 n.
Definition pv (n : nat) (x : string) (v : py) : piece := pc (nl n) (txt x) (repr v) (repr v) v.
Definition pt (n : nat) (x : string) (s : bytes) (v : py) : piece := pc (nl n) (txt x) s s v.
Record stmt := mkS { s_lead : bytes; s_cls : bytes; s_args : list piece; s_tail : bytes; s_trail : bytes }.
Definition text_of (s : stmt) : bytes := stmt_text (s_lead s) (s_cls s) (s_args s) (s_tail s) (s_trail s).
Definition ref_piece (r : option Z) : list piece := match r with None => [] | Some i => [pv 12 "ref_id" (YInt i)] end.
Definition pvalue_py (v : pvalue) : py := match v with VRepr v => v | VClimate n => climate_py n end.
Definition block (cls : string) (l : list piece) : stmt := mkS (nl 8) (txt cls) l (44 :: nl 8) [].
Definition open_block (cls : string) (l : list piece) : stmt := mkS (nl 8) (txt cls) l (nl 8) [].
Definition spaced_block (cls : string) (l : list piece) : stmt := mkS (repeat 32 9) (txt cls) l (44 :: nl 8) (nl 8).
Definition pp_piece (pp : py -> bytes) (x : string) (v : py) : piece := pc (nl 12) (txt x) (pformat pp v 18 (Some O)) (pp v) v.
Definition code_piece (code : bytes) : piece :=
  if existsb (Z.eqb 10) code
  then pc (nl 12) (txt "code") (code_text code) (txt "'''" ++ (10 :: code) ++ txt "'''") (YText (10 :: code))
  else pv 12 "code" (YStr code).
Definition d_value_py (v : d_value) : py := match v with DVNone => YNone | DVNum n => YInt n | DVRaw b => YBytes b end.
Definition args1 (v : py) : list piece := [pc [] [] (repr v) (repr v) v].
Definition args2 (v w : py) : list piece := [pc [] [] (repr v) (repr v) v; pc [32] [] (repr w) (repr w) w].

Definition parts (pp : py -> bytes) (a : paction) : option stmt :=
  match a with
  | PDefine f id props =>
      Some (open_block "Define" [pv 12 "feature" (feature_py (Some f)); pv 12 "id" (YInt id);
        pt 12 "props" (py_dict (map (fun e => (repr (YStr (fst e)), pvalue_text (snd e))) props)) (YDict (map (fun e => (YStr (fst e), pvalue_py (snd e))) props))])
  | PDefineMultiple f id count props =>
      Some (mkS (nl 8) (txt "DefineMultiple") [pv 12 "feature" (feature_py (Some f)); pv 12 "first_id" (YInt id); pv 12 "count" (YInt count);
        pt 12 "props" (py_dict (map (fun e => (repr (YStr (fst e)), 91 :: joins (txt ", ") (map pvalue_text (snd e)) ++ [93])) props))
          (YDict (map (fun e => (YStr (fst e), YList (map pvalue_py (snd e)))) props))] (nl 8) (nl 8))
  | PAction1 a =>
      Some (block "Action1" [pv 12 "feature" (feature_py (Some (a1_feature a))); pv 12 "set_count" (YInt (a1_set_count a));
        pv 12 "sprite_count" (YInt (a1_sprite_count a)); pv 12 "first_set" (opt_int (a1_first_set a))])
  | PSpriteSet f count => Some (block "SpriteSet" [pv 12 "feature" (feature_py (Some f)); pv 12 "count" (YInt count)])
  | PGeneric f r ent1 ent2 =>
      Some (spaced_block "GenericSpriteLayout" (pv 12 "feature" (feature_py f) :: ref_piece r ++
        [pv 12 "ent1" (YTuple (map YInt ent1)); pv 12 "ent2" (YTuple (map YInt ent2))]))
  | PBasic f r x y =>
      Some (spaced_block "BasicSpriteLayout" (pv 12 "feature" (feature_py f) :: ref_piece r ++ [pv 12 "ground" x; pv 12 "building" y]))
  | PAdvanced f r x y =>
      Some (block "AdvancedSpriteLayout" (pv 12 "feature" (feature_py f) :: ref_piece r ++ [pv 12 "ground" x; pv 12 "buildings" y]))
  | PSwitch f r related code ranges default =>
      Some (block "Switch" (pv 12 "feature" (feature_py f) :: ref_piece r ++ [pv 12 "related_scope" (YBool related); code_piece code;
        pt 12 "ranges" (py_dict (map (fun e => (repr (key_py (fst e)), repr (expr_py (snd e)))) ranges)) (YDict (map (fun e => (key_py (fst e), expr_py (snd e))) ranges));
        pv 12 "default" (expr_py default)]))
  | PRandom f r scope count triggers cmp_all lowest groups =>
      Some (block "RandomSwitch" (pv 12 "feature" (feature_py f) :: ref_piece r ++ [pv 12 "scope" (YStr scope); pv 12 "count" (opt_int count);
        pv 12 "triggers" (YInt triggers); pv 12 "cmp_all" (YBool cmp_all); pv 12 "lowest_bit" (YInt lowest); pv 12 "groups" (YList (map expr_py groups))]))
  | PProduction version x y z =>
      Some (block "IndustryProductionCallback" [pv 12 "version" (YInt version); pv 12 "inputs" x; pv 12 "outputs" y; pv 12 "do_again" z])
  | PAction3 f wagon ids maps default =>
      Some (block "Action3" [pv 12 "feature" (feature_py (Some f)); pv 12 "wagon_override" (YBool wagon); pv 12 "ids" (ints ids);
        pt 12 "maps" (py_dict (map (fun e => (repr (YInt (fst e)), repr (expr_py (snd e)))) maps)) (YDict (map (fun e => (YInt (fst e), expr_py (snd e))) maps));
        pv 12 "default" (expr_py default)])
  | PStrings a =>
      Some (open_block "DefineStrings" [pv 12 "feature" (feature_py (Some (a4_feature a))); pv 12 "lang" (YInt (a4_lang a));
        pt 12 "offset" (if a4_generic a then txt "0x" ++ fmt_04x (a4_offset a) else str_int (a4_offset a)) (YInt (a4_offset a));
        pv 12 "is_generic_offset" (YBool (a4_generic a)); pp_piece pp "strings" (YList (map YBytes (a4_strings a)))])
  | PAction5 a =>
      Some (mkS [] (txt "ReplaceNewSprites") [pc [] (txt "set_type") (str_int (a5_type a)) (str_int (a5_type a)) (YInt (a5_type a));
        pc [32] (txt "count") (str_int (a5_count a)) (str_int (a5_count a)) (YInt (a5_count a));
        pc [32] (txt "offset") (repr (opt_int (a5_offset a))) (repr (opt_int (a5_offset a))) (opt_int (a5_offset a))] [] [])
  | PAction6 l =>
      let v := YList (map patch_py l) in
      Some (mkS [] (txt "ModifySprites") [pc [10] [] (pformat pp v 4 None) (pp v) v] [10] [])
  | PIf a =>
      match a7_value a with
      | IVBytes _ => None
      | IVInt v =>
        do c <- (if v <=? 4294967295 then value_comment v else Some []);
        Some (mkS (nl 12) (txt "If") [pv 16 "is_static" (YBool (a7_static a)); pv 16 "variable" (YInt (a7_var a)); pv 16 "varsize" (opt_int (a7_varsize a));
          pv 16 "condition" (YInt (a7_cond a)); pv 16 "value" (YInt v);
          pc (c ++ nl 16) (txt "skip") (str_int (a7_skip a)) (str_int (a7_skip a)) (YInt (a7_skip a))] (44 :: nl 12) [])
      end
  | PDescription a =>
      Some (block "SetDescription" [pv 12 "format_version" (YInt (a8_version a)); pv 12 "grfid" (YBytes (a8_grfid a)); pv 12 "name" (YBytes (a8_name a));
        pv 12 "description" (YBytes (a8_desc a))])
  | PActionA l =>
      let v := YList (map (fun s => YTuple [YInt (fst s); YInt (snd s)]) l) in
      Some (mkS [] (txt "ReplaceOldSprites") [pc [] (txt "sets") (repr v) (repr v) v] [] [])
  | PError a =>
      Some (block "ErrorMessage" [pv 12 "severity" (YInt (ab_severity a)); pv 12 "lang" (YInt (ab_lang a)); pv 12 "message" (msg_py (ab_message a));
        pv 12 "text_param" (opt_bytes (ab_text_param a)); pv 12 "params" (ints (ab_params a))])
  | PComment b => Some (mkS [] (txt "Comment") (args1 (YBytes b)) [] [])
  | PCompute a =>
      do c <- (match ad_value a with DVNone => Some [] | DVNum n => value_comment n | DVRaw _ => None end);
      Some (mkS (nl 8) (txt "ComputeParameters") [pv 12 "target" (YInt (ad_target a)); pv 12 "operation" (YInt (ad_op a));
        pv 12 "if_undefined" (YBool (ad_if_undefined a)); pv 12 "source1" (YInt (ad_src1 a)); pv 12 "source2" (YInt (ad_src2 a));
        pv 12 "value" (d_value_py (ad_value a))] (44 :: c ++ nl 8) [])
  | PLabel a => Some (mkS [] (txt "Label") (args2 (YInt (a10_label a)) (YBytes (a10_comment a))) [] [])
  | PSoundEffects n => Some (mkS [] (txt "SoundEffects") (args1 (YInt n)) [] [])
  | PImportSound a => Some (mkS [] (txt "ImportSound") (args2 (YBytes (afe_grfid a)) (YInt (afe_number a))) [] [])
  | PProperties l => Some (open_block "SetProperties" [pp_piece pp "props" (dval_py (DDict l))])
  end.

Ltac same_text := cbn [py_text parts bind option_map]; apply (f_equal Some);
  unfold text_of, stmt_text, block, open_block, spaced_block, real_arg, pv, pt; cbn [s_lead s_cls s_args s_tail s_trail ref_piece map p_pre p_name p_real app ref_id_text args_text];
  rewrite <- ?app_assoc; cbn [app]; rewrite <- ?app_assoc; reflexivity.
Theorem parts_text pp a : py_text pp a = option_map text_of (parts pp a).
Proof.
  destruct a.
  - same_text.
  - same_text.
  - same_text.
  - same_text.
  - destruct ref_id; same_text.
  - destruct ref_id; same_text.
  - destruct ref_id; same_text.
  - unfold parts, code_piece. destruct (existsb (Z.eqb 10) code) eqn:C; destruct ref_id; cbn [py_text bind option_map]; unfold code_text; rewrite ?C;  same_text.
  - cbn [py_text]. rewrite <- (map_map expr_py repr).
    assert (E : forall t, txt ",
            groups=[" ++ joins (txt ", ") (map repr (map expr_py groups)) ++ txt "],
        )" ++ t = txt ",
            groups=" ++ repr (YList (map expr_py groups)) ++ txt ",
        )" ++ t) by (intros t; cbn [repr]; generalize (joins (txt ", ") (map repr (map expr_py groups))); intros x; cbn [app]; rewrite <- app_assoc; reflexivity).
    specialize (E []). rewrite !app_nil_r in E. rewrite E. destruct ref_id; same_text.
  - same_text.
  - same_text.
  - same_text.
  - same_text.
  - same_text.
  - destruct a as [st vr vs c v sk]. destruct v as [v|v]; [|reflexivity]. cbn [py_text parts a7_value a7_static a7_var a7_varsize a7_cond a7_skip].
    destruct (if v <=? 4294967295 then value_comment v else Some []) as [cm|]; [|reflexivity]. same_text.
  - same_text.
  - same_text.
  - same_text.
  - same_text.
  - destruct a as [t o u s1 s2 v]. cbn [py_text parts ad_value ad_target ad_op ad_if_undefined ad_src1 ad_src2].
    destruct v as [|n|b]; [| |reflexivity].
    + same_text.
    + destruct (value_comment n) as [c|]; [|reflexivity]. same_text.
  - same_text.
  - same_text.
  - same_text.
  - same_text.
Qed.

(** ** The pieces are right *)
Lemma skips_nil : skips []. Proof. intros t. reflexivity. Qed.
Lemma skips_nl n : skips (nl n). Proof. apply skips_blank. Qed.
Lemma clean_nl n : clean (nl n) = true. Proof. unfold nl. rewrite clean_cons, clean_repeat. reflexivity. Qed.
Lemma piece_plain pre x s v : skips pre -> clean pre = true -> good_name x = true -> reads true s v -> clean s = true -> piece_ok (pc pre x s s v).
Proof.
  intros P C G R S. split; [|split; [exact C|split; [exact S|reflexivity]]]. split; [exact P|]. split; [intros E; cbn in E; rewrite E in G; discriminate|]. split; [intros _; exact G|exact R].
Qed.
Lemma piece_pos pre v : skips pre -> clean pre = true -> wfp v = true -> piece_ok (pc pre [] (repr v) (repr v) v).
Proof.
  intros P C W. pose proof (repr_good v W) as [U Q]. split; [|split; [exact C|split; [apply clean_repr; exact W|reflexivity]]].
  split; [exact P|]. split; [intros _; exact Q|]. split; [intros N; exfalso; apply N; reflexivity|]. apply ureads_reads, U.
Qed.
Lemma piece_pv n x v : good_name (txt x) = true -> wfp v = true -> piece_ok (pv n x v).
Proof. intros G W. apply piece_plain; [apply skips_nl|apply clean_nl|exact G|apply good_reads, repr_good, W|apply clean_repr, W]. Qed.
Lemma piece_pt n x s v : good_name (txt x) = true -> reads true s v -> clean s = true -> piece_ok (pt n x s v).
Proof. intros G R C. apply piece_plain; [apply skips_nl|apply clean_nl|exact G|exact R|exact C]. Qed.

Lemma inside_reads s v : Inside s v -> reads true s v.
Proof.
  intros H n rest S B L. apply H; [|exact L]. unfold stops in S. unfold nobar in B. pose proof (skip_first_nl rest false) as N. fold (ws true rest) in N. destruct (ws true rest) as [|c r]; [exact I|].
  destruct (stopc_cases c S) as [-> | [-> | [-> | [-> | [-> | [-> | ->]]]]]]; auto; [discriminate|contradiction].
Qed.
Lemma lstrip_solid s : match s with c :: _ => c = 91 \/ c = 123 | [] => False end -> lstrip s = s.
Proof. destruct s as [|c r]; [easy|]. intros [-> | ->]; reflexivity. Qed.
Lemma piece_pp pp x v : prints pp -> literal v = true -> quiet v = true -> ((exists l, v = YList l) \/ (exists l, v = YDict l)) -> good_name (txt x) = true -> piece_ok (pp_piece pp x v).
Proof.
  intros P L Q K G. destruct (P v L Q K) as (R & V & F). unfold pp_piece, pformat. cbn [Nat.eqb repeat]. rewrite app_nil_r.
  assert (C : clean (pp v) = true) by exact V.
  split; [|split; [apply clean_nl|split; [apply clean_lstrip, clean_indent, C|]]].
  - split; [apply skips_nl|]. split; [cbn [p_name]; intros E; rewrite E in G; discriminate|]. split; [intros _; exact G|apply inside_reads, R].
  - intros b. cbn [p_pre p_name p_real p_raw]. apply norm_after. unfold named. destruct (good_first (txt x) G) as (c & y & E & _). rewrite E.
    change ((c :: y) ++ [61]) with (c :: y ++ [61]). apply norm_after.
    assert (S : forall b, state b (c :: y ++ [61]) = false).
    { intros b'. change (c :: y ++ [61]) with ((c :: y) ++ [61]). generalize (c :: y). intros z. revert b'. induction z as [|d z IH]; intros b'; cbn [app state].
      - change (61 =? 10) with false. change (61 =? 32) with false. rewrite andb_false_r. reflexivity.
      - destruct (d =? 10); [apply IH|]. destruct (b' && (d =? 32)); apply IH. }
    rewrite S. rewrite norm_lstrip_indent by exact C. rewrite lstrip_solid by exact F. reflexivity.
Qed.

Lemma feature_wfp f : is_feature f -> wfp (feature_py (Some f)) = true.
Proof.
  intros H. cbn [feature_py wfp]. assert (A : forallb good_name FEATURE_CONSTANTS = true) by reflexivity. rewrite forallb_forall in A. apply A.
  apply nth_In. unfold is_feature in H. change (List.length FEATURE_CONSTANTS) with 21%nat. lia.
Qed.
Lemma opt_feature_wfp f : opt_feature f -> wfp (feature_py f) = true.
Proof. destruct f as [f|]; [apply feature_wfp|reflexivity]. Qed.
Lemma expr_wfp e : ref_ok e -> wfp (expr_py e) = true.
Proof. destruct e as [x|[v|]|v|n]; cbn [ref_ok expr_py wfp]; auto; reflexivity. Qed.
Lemma key_wfp k : wfp (key_py k) = true. Proof. destruct k; reflexivity. Qed.
Lemma opt_int_wfp o : wfp (opt_int o) = true. Proof. destruct o; reflexivity. Qed.
Lemma ints_wfp l : forallb wfp (map YInt l) = true. Proof. induction l; [reflexivity|assumption]. Qed.
Lemma map_wfp {A} (f : A -> py) l : Forall (fun x => wfp (f x) = true) l -> forallb wfp (map f l) = true.
Proof. intros F. induction F; [reflexivity|]. cbn [map forallb]. rewrite H, IHF. reflexivity. Qed.

(** Dicts of printed keys and values. *)
Lemma solid_repr_key v : match v with YStr _ | YInt _ | YTuple _ => True | _ => False end -> solid_first (repr v).
Proof.
  destruct v; try easy; intros _.
  - cbn [repr]. destruct (JsonProofs.str_int_first n) as (c & r & E & H). rewrite E. cbn [solid_first]. unfold spaceb. lia.
  - cbn [repr]. unfold repr_chars. cbv zeta. cbn [solid_first]. destruct (repr_quote_cases s) as [-> | ->]; reflexivity.
  - cbn [repr]. destruct l as [|a [|b l]]; reflexivity.
Qed.
Lemma piece_dict {A} n x (l : list A) (key : A -> py) (txtv : A -> bytes) (val : A -> py) :
  good_name (txt x) = true ->
  Forall (fun e => match key e with YStr _ | YInt _ | YTuple _ => True | _ => False end /\ wfp (key e) = true /\ reads true (txtv e) (val e) /\ clean (txtv e) = true) l ->
  piece_ok (pt n x (py_dict (map (fun e => (repr (key e), txtv e)) l)) (YDict (map (fun e => (key e, val e)) l))).
Proof.
  intros G F. apply piece_pt; [exact G| |].
  - set (q := map (fun e => ((repr (key e), key e), (txtv e, val e))) l).
    assert (Q1 : map (fun e => (repr (key e), txtv e)) l = map (fun e => (fst (fst e), fst (snd e))) q) by (unfold q; rewrite map_map; reflexivity).
    assert (Q2 : map (fun e => (key e, val e)) l = map (fun e => (snd (fst e), snd (snd e))) q) by (unfold q; rewrite map_map; reflexivity).
    rewrite Q1, Q2. apply good_reads, good_py_dict; unfold q; apply Forall_map; (eapply Forall_impl; [|exact F]); intros e (K & W & R & C); cbn [fst snd].
    + split; [apply good_reads, repr_good, W|exact R].
    + apply solid_repr_key, K.
  - apply clean_py_dict. apply Forall_map. eapply Forall_impl; [|exact F]. intros e (K & W & R & C). cbn [fst snd]. split; [apply clean_repr, W|exact C].
Qed.
Lemma pvalue_reads v : value_ok v -> reads true (pvalue_text v) (pvalue_py v) /\ clean (pvalue_text v) = true.
Proof.
  destruct v as [v|n]; intros H; cbn [pvalue_text pvalue_py].
  - destruct H as [W _]. split; [apply good_reads, repr_good, W|apply clean_repr, W].
  - split; [apply climate_reads|apply clean_climate].
Qed.
Lemma pvalues_reads l : Forall value_ok l -> reads true (91 :: joins (txt ", ") (map pvalue_text l) ++ [93]) (YList (map pvalue_py l)) /\ clean (91 :: joins (txt ", ") (map pvalue_text l) ++ [93]) = true.
Proof.
  intros F. split.
  - set (q := map (fun v => (pvalue_text v, pvalue_py v)) l).
    assert (Q1 : map pvalue_text l = map fst q) by (unfold q; rewrite map_map; reflexivity). assert (Q2 : map pvalue_py l = map snd q) by (unfold q; rewrite map_map; reflexivity).
    rewrite Q1, Q2. apply good_reads, good_list. unfold q. apply Forall_map. eapply Forall_impl; [|exact F]. intros v H. exact (proj1 (pvalue_reads v H)).
  - rewrite clean_cons, clean_app, clean_joins; [reflexivity|reflexivity|]. apply Forall_map. eapply Forall_impl; [|exact F]. intros v H. exact (proj2 (pvalue_reads v H)).
Qed.
Lemma comment_ok n c m : 0 <= n -> value_comment n = Some c -> skips (c ++ nl m) /\ clean c = true.
Proof.
  intros N H. unfold value_comment in H. destruct (pack_I n) as [b|] eqn:P; [|discriminate]. cbn [bind] in H. injection H as <-.
  assert (B : forallb byteb b = true).
  { apply pack_I_inv in P as [R ->]. cbn [forallb]. unfold byteb. Z.to_euclidean_division_equations. lia. }
  set (t := removelast (skipn 2 (repr (YBytes b)))).
  assert (I : forall x, In x t -> In x (repr_chars b)).
  { intros x J. unfold t in J. cbn [repr] in J. assert (K : In x (skipn 2 (98 :: repr_chars b))).
    { revert J. generalize (skipn 2 (98 :: repr_chars b)). intros l. induction l as [|a l IH]; [easy|]. cbn [removelast]. destruct l as [|d l]; [easy|]. intros [-> | J]; [left; reflexivity|right; apply IH, J]. }
    change (skipn 2 (98 :: repr_chars b)) with (skipn 1 (repr_chars b)) in K. apply in_skipn in K. exact K. }
  split.
  - apply skips_comment. intros J. apply (one_line_chars b B). apply I, J.
  - change (clean (txt "  # " ++ t) = true). rewrite clean_app. apply andb_true_intro. split; [reflexivity|]. apply forallb_forall. intros x J. apply I in J.
    pose proof (clean_chars b B) as C. unfold clean in C. rewrite forallb_forall in C. apply C, J.
Qed.

Definition stmt_ok (s : stmt) : Prop :=
  blankb (s_lead s) = true /\ clean (s_lead s) = true /\ blankb (s_trail s) = true /\ clean (s_trail s) = true /\ clean (s_tail s) = true /\
  good_name (s_cls s) = true /\ s_args s <> [] /\ Forall piece_ok (s_args s) /\ ordered false (map p_name (s_args s)) = true /\
  (forall rest, ends_call (s_tail s ++ 41 :: rest) rest).
Lemma ends_nil rest : ends_call (41 :: rest) rest. Proof. left. reflexivity. Qed.
Lemma ends_blank p rest : skips p -> ends_call (p ++ 41 :: rest) rest.
Proof. intros S. left. rewrite S. reflexivity. Qed.
Lemma ends_comma p rest : skips p -> ends_call ((44 :: p) ++ 41 :: rest) rest.
Proof. intros S. right. exists (p ++ 41 :: rest). split; [reflexivity|]. rewrite S. reflexivity. Qed.
Lemma block_ok cls l : good_name (txt cls) = true -> l <> [] -> Forall piece_ok l -> ordered false (map p_name l) = true -> stmt_ok (block cls l).
Proof.
  intros G N F O. repeat split; try reflexivity; try assumption. intros rest. apply ends_comma, skips_nl.
Qed.
Lemma spaced_block_ok cls l : good_name (txt cls) = true -> l <> [] -> Forall piece_ok l -> ordered false (map p_name l) = true -> stmt_ok (spaced_block cls l).
Proof.
  intros G N F O. repeat split; try reflexivity; try assumption. intros rest. apply ends_comma, skips_nl.
Qed.
Lemma open_block_ok cls l : good_name (txt cls) = true -> l <> [] -> Forall piece_ok l -> ordered false (map p_name l) = true -> stmt_ok (open_block cls l).
Proof.
  intros G N F O. repeat split; try reflexivity; try assumption. intros rest. apply ends_blank, skips_nl.
Qed.
Lemma piece_code code : code_ok code -> piece_ok (code_piece code).
Proof.
  unfold code_ok, code_piece. intros H. destruct (existsb (Z.eqb 10) code) eqn:E.
  - assert (H' : forallb codec (10 :: code) = true) by exact H.
    unfold code_text. rewrite E. set (t := txt "'''
" ++ code ++ txt "'''"). assert (T : t = txt "'''" ++ (10 :: code) ++ txt "'''") by reflexivity. rewrite <- T.
    assert (C : clean t = true) by (rewrite T, !clean_app, (clean_code _ H'); reflexivity).
    split; [|split; [apply clean_nl|split; [apply clean_lstrip, clean_indent, C|]]].
    + split; [apply skips_nl|]. split; [discriminate|]. split; [reflexivity|]. apply good_reads. unfold p_raw, p_val. rewrite T. apply code_good. exact H'.
    + intros b. cbn [p_pre p_name p_real p_raw]. apply norm_after. change (named (txt "code")) with (txt "code="). apply norm_after.
      change (state (state b (nl 12)) (txt "code=")) with false. rewrite norm_lstrip_indent by exact C. reflexivity.
  - apply piece_pv; [reflexivity|]. exact H.
Qed.
Fixpoint dval_literal (v : dval) : dval_ok v -> literal (dval_py v) = true.
Proof.
  destruct v as [l|l]; cbn [dval_ok dval_py literal].
  - intros [_ H]. induction l as [|[k v] l IH]; [reflexivity|]. destruct H as (B & V & R). cbn [map forallb fst snd literal]. rewrite (dval_literal v V), (IH R). cbn [fst] in B. unfold is_bytes in B. rewrite B. reflexivity.
  - intros F. induction F as [|i l H F IH]; [reflexivity|]. cbn [map forallb]. rewrite IH. destruct i as [b|x b]; cbn [item_py literal forallb andb]; unfold is_bytes in H; rewrite H; reflexivity.
Qed.
Fixpoint dval_quiet (v : dval) : quiet (dval_py v) = true.
Proof.
  destruct v as [l|l]; cbn [dval_py quiet].
  - induction l as [|[k v] l IH]; [reflexivity|]. cbn [map forallb fst snd]. rewrite (dval_quiet v), IH. reflexivity.
  - induction l as [|i l IH]; [reflexivity|]. cbn [map forallb]. rewrite IH. destruct i; reflexivity.
Qed.
Ltac pieces := repeat (apply Forall_cons || apply Forall_nil || (apply Forall_app; split)); try (apply piece_pv; [reflexivity|]).
Lemma ref_piece_ok r : Forall piece_ok (ref_piece r).
Proof. destruct r; cbn [ref_piece]; pieces. reflexivity. Qed.
Theorem parts_ok pp a : prints pp -> printable a -> exists s, parts pp a = Some s /\ stmt_ok s.
Proof.
  intros P H. destruct a; cbn [printable] in H; cbn [parts].
  - destruct H as (H1 & H2 & H3). eexists; split; [reflexivity|]. apply open_block_ok; [reflexivity|discriminate| |reflexivity]. pieces; [apply feature_wfp, H1|reflexivity|].
    apply (piece_dict 12 "props" props (fun e => YStr (fst e)) (fun e => pvalue_text (snd e)) (fun e => pvalue_py (snd e))); [reflexivity|].
    eapply Forall_impl; [|exact H3]. intros e (K & V). split; [exact I|]. split; [exact K|]. apply pvalue_reads, V.
  - destruct H as (H1 & H2 & H3). eexists; split; [reflexivity|]. repeat split; try reflexivity; [discriminate| |intros rest; apply ends_blank, skips_nl].
    cbn [s_args]. pieces; [apply feature_wfp, H1|reflexivity|reflexivity|].
    apply (piece_dict 12 "props" props (fun e => YStr (fst e)) (fun e => 91 :: joins (txt ", ") (map pvalue_text (snd e)) ++ [93]) (fun e => YList (map pvalue_py (snd e)))); [reflexivity|].
    eapply Forall_impl; [|exact H3]. intros e (K & V). split; [exact I|]. split; [exact K|]. apply pvalues_reads, V.
  - eexists; split; [reflexivity|]. apply block_ok; [reflexivity|discriminate| |reflexivity]. pieces; [apply feature_wfp, H|reflexivity|reflexivity|apply opt_int_wfp].
  - eexists; split; [reflexivity|]. apply block_ok; [reflexivity|discriminate| |reflexivity]. pieces; [apply feature_wfp, H|reflexivity].
  - eexists; split; [reflexivity|]. apply spaced_block_ok; [reflexivity|discriminate| |destruct ref_id; reflexivity]. pieces; [apply opt_feature_wfp, H|apply ref_piece_ok|apply ints_wfp|apply ints_wfp].
  - destruct H as (H1 & H2 & H3). eexists; split; [reflexivity|]. apply spaced_block_ok; [reflexivity|discriminate| |destruct ref_id; reflexivity]. pieces; [apply opt_feature_wfp, H1|apply ref_piece_ok|exact H2|exact H3].
  - destruct H as (H1 & H2 & H3). eexists; split; [reflexivity|]. apply block_ok; [reflexivity|discriminate| |destruct ref_id; reflexivity]. pieces; [apply opt_feature_wfp, H1|apply ref_piece_ok|exact H2|exact H3].
  - destruct H as (H1 & H2 & H3 & H4). eexists; split; [reflexivity|]. apply block_ok; [reflexivity|discriminate| |].
    + pieces; [apply opt_feature_wfp, H1|apply ref_piece_ok|reflexivity|apply piece_code, H2| |apply expr_wfp, H4].
      apply (piece_dict 12 "ranges" ranges (fun e => key_py (fst e)) (fun e => repr (expr_py (snd e))) (fun e => expr_py (snd e))); [reflexivity|].
      eapply Forall_impl; [|exact H3]. intros [k e] R. cbn [fst snd] in *. split; [destruct k; exact I|]. split; [apply key_wfp|]. split; [apply good_reads, repr_good, expr_wfp, R|apply clean_repr, expr_wfp, R].
    + destruct ref_id; unfold code_piece; destruct (existsb (Z.eqb 10) code); reflexivity.
  - destruct H as (H1 & H2 & H3). eexists; split; [reflexivity|]. apply block_ok; [reflexivity|discriminate| |destruct ref_id; reflexivity].
    pieces; [apply opt_feature_wfp, H1|apply ref_piece_ok|exact H2|apply opt_int_wfp|reflexivity..|]. apply map_wfp. eapply Forall_impl; [|exact H3]. intros e R. apply expr_wfp, R.
  - destruct H as (H1 & H2 & H3). eexists; split; [reflexivity|]. apply block_ok; [reflexivity|discriminate| |reflexivity]. pieces; [reflexivity|exact H1|exact H2|exact H3].
  - destruct H as (H1 & H2 & H3). eexists; split; [reflexivity|]. apply block_ok; [reflexivity|discriminate| |reflexivity]. pieces; [apply feature_wfp, H1|reflexivity|apply ints_wfp| |apply expr_wfp, H3].
    apply (piece_dict 12 "maps" maps (fun e => YInt (fst e)) (fun e => repr (expr_py (snd e))) (fun e => expr_py (snd e))); [reflexivity|].
    eapply Forall_impl; [|exact H2]. intros [k e] R. cbn [fst snd] in *. split; [exact I|]. split; [reflexivity|]. split; [apply good_reads, repr_good, expr_wfp, R|apply clean_repr, expr_wfp, R].
  - destruct H as (H1 & H2 & H3). eexists; split; [reflexivity|]. apply open_block_ok; [reflexivity|discriminate| |reflexivity]. pieces; [apply feature_wfp, H1|reflexivity| |reflexivity|].
    + apply piece_pt; [reflexivity| |].
      * destruct (a4_generic a); [apply good_reads, fmt_04x_good, H3; reflexivity|apply good_reads, good_int].
      * destruct (a4_generic a); [apply clean_04x, H3; reflexivity|apply clean_int].
    + apply piece_pp; [exact P| | |left; eexists; reflexivity|reflexivity].
      * cbn [literal]. induction H2 as [|b l B F IH]; [reflexivity|]. cbn [map forallb literal]. rewrite B. exact IH.
      * cbn [quiet]. clear. induction (a4_strings a) as [|b l IH]; [reflexivity|exact IH].
  - eexists; split; [reflexivity|]. repeat split; try reflexivity; [discriminate| |intros rest; apply ends_nil]. cbn [s_args]. pieces.
    + apply piece_plain; [apply skips_nil|reflexivity|reflexivity|apply good_reads, good_int|apply clean_int].
    + apply piece_plain; [apply skips_space|reflexivity|reflexivity|apply good_reads, good_int|apply clean_int].
    + apply piece_plain; [apply skips_space|reflexivity|reflexivity|apply good_reads, repr_good, opt_int_wfp|apply clean_repr, opt_int_wfp].
  - eexists; split; [reflexivity|]. repeat split; try reflexivity; [discriminate| |intros rest; apply (ends_blank [10]); apply (skips_nl 0)]. cbn [s_args]. pieces.
    set (v := YList (map patch_py l)). assert (L : literal v = true) by (unfold v; cbn [literal]; induction l as [|[[x y] z] l IH]; [reflexivity|exact IH]).
    assert (QU : quiet v = true) by (unfold v; cbn [quiet]; clear; induction l as [|[[? ?] ?] l IH]; [reflexivity|exact IH]).
    destruct (P v L QU (or_introl (ex_intro _ _ eq_refl))) as (R & V & F). assert (C : clean (pp v) = true) by exact V.
    split; [|split; [reflexivity|split; [apply clean_indent, C|]]].
    + split; [apply (skips_nl 0)|]. split; [|split; [intros N; exfalso; apply N; reflexivity|apply inside_reads, R]].
      intros _ t _ _. cbn [p_raw raw_arg]. destruct (pp v) as [|c r]; [destruct F|]. apply positional_nonletter; destruct F as [-> | ->]; reflexivity.
    + intros b. cbn [p_pre p_name p_real p_raw named app pformat]. cbn [norm]. change (10 =? 10) with true. cbv iota. f_equal. apply norm_indent, C.
  - destruct a as [st vr vs c v sk]. cbn [a7_value a7_static a7_var a7_varsize a7_cond a7_skip] in *. destruct v as [v|v]; [|contradiction].
    assert (X : exists cm, (if v <=? 4294967295 then value_comment v else Some []) = Some cm /\ skips (cm ++ nl 16) /\ clean cm = true).
    { destruct (Z.leb_spec v 4294967295).
      - unfold value_comment at 1. rewrite pack_I_ok by lia. cbn [bind]. eexists; split; [reflexivity|]. apply (comment_ok v); [exact H|]. unfold value_comment. rewrite pack_I_ok by lia. reflexivity.
      - exists []. split; [reflexivity|]. split; [apply skips_nl|reflexivity]. }
    destruct X as (cm & -> & S & C). cbn [bind]. eexists; split; [reflexivity|]. repeat split; try reflexivity; [discriminate| |intros rest; apply ends_comma, skips_nl].
    cbn [s_args]. pieces; [reflexivity|reflexivity|apply opt_int_wfp|reflexivity|reflexivity|].
    apply piece_plain; [exact S|rewrite clean_app, C; apply clean_nl|reflexivity|apply good_reads, good_int|apply clean_int].
  - destruct H as (H1 & H2 & H3). eexists; split; [reflexivity|]. apply block_ok; [reflexivity|discriminate| |reflexivity]. pieces; [reflexivity|exact H1|exact H2|exact H3].
  - eexists; split; [reflexivity|]. repeat split; try reflexivity; [discriminate| |intros rest; apply ends_nil]. cbn [s_args]. pieces.
    assert (W : wfp (YList (map (fun s => YTuple [YInt (fst s); YInt (snd s)]) l)) = true) by (cbn [wfp]; apply map_wfp; apply Forall_forall; reflexivity).
    apply piece_plain; [apply skips_nil|reflexivity|reflexivity|apply good_reads, repr_good, W|apply clean_repr, W].
  - destruct H as (H1 & H2). eexists; split; [reflexivity|]. apply block_ok; [reflexivity|discriminate| |reflexivity].
    pieces; [reflexivity|reflexivity|destruct (ab_message a); [reflexivity|exact H1]|destruct (ab_text_param a); [exact H2|reflexivity]|apply ints_wfp].
  - eexists; split; [reflexivity|]. repeat split; try reflexivity; [discriminate| |intros rest; apply ends_nil]. cbn [s_args]. unfold args1. pieces. apply piece_pos; [apply skips_nil|reflexivity|exact H].
  - destruct a as [t o u s1 s2 v]. cbn [ad_value ad_target ad_op ad_if_undefined ad_src1 ad_src2] in *.
    assert (X : exists cm, (match v with DVNone => Some [] | DVNum n => value_comment n | DVRaw _ => None end) = Some cm /\ skips (cm ++ nl 8) /\ clean cm = true /\ wfp (d_value_py v) = true).
    { destruct v as [|n|b]; [|unfold u32 in H|contradiction].
      - exists []. split; [reflexivity|]. split; [apply skips_nl|split; reflexivity].
      - unfold value_comment at 1. rewrite pack_I_ok by lia. cbn [bind]. eexists; split; [reflexivity|].
        destruct (comment_ok n _ 8 (proj1 H) ltac:(unfold value_comment; rewrite pack_I_ok by lia; reflexivity)) as [S C]. split; [exact S|]. split; [exact C|reflexivity]. }
    destruct X as (cm & -> & S & C & W). cbn [bind]. eexists; split; [reflexivity|]. repeat split; try reflexivity; [|discriminate| |].
    + cbn [s_tail]. rewrite clean_cons, clean_app, C. apply clean_nl.
    + cbn [s_args]. pieces; [reflexivity..|exact W].
    + intros rest. cbn [s_tail]. apply ends_comma, S.
  - eexists; split; [reflexivity|]. repeat split; try reflexivity; [discriminate| |intros rest; apply ends_nil]. cbn [s_args]. unfold args2. pieces; (apply piece_pos; [apply skips_nil || apply skips_space|reflexivity|reflexivity || exact H]).
  - eexists; split; [reflexivity|]. repeat split; try reflexivity; [discriminate| |intros rest; apply ends_nil]. cbn [s_args]. unfold args1. pieces. apply piece_pos; [apply skips_nil|reflexivity|reflexivity].
  - eexists; split; [reflexivity|]. repeat split; try reflexivity; [discriminate| |intros rest; apply ends_nil]. cbn [s_args]. unfold args2. pieces; (apply piece_pos; [apply skips_nil || apply skips_space|reflexivity|reflexivity || exact H]).
  - eexists; split; [reflexivity|]. apply open_block_ok; [reflexivity|discriminate| |reflexivity]. pieces. apply piece_pp; [exact P| | |right; eexists; reflexivity|reflexivity].
    + exact (dval_literal (DDict l) H).
    + exact (dval_quiet (DDict l)).
Qed.
