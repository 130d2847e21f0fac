(** A printed statement: a call with its arguments on lines of their own.
    What dedent and strip leave of it reads as that call. *)
From Coq Require Import ZArith List Bool Lia String.
From Verif Require Import Base BaseFacts PyValue SpecPython PyTextModel PyReadProofs PyMonoProofs PyIndentProofs PyStripProofs PyPartsProofs PyCleanProofs.
Import ListNotations.
Open Scope Z_scope.

(** An argument: what is before it, its name, its text, a text that differs
    from it in indentation only, its value. *)
Record piece := pc { p_pre : bytes; p_name : bytes; p_real : bytes; p_raw : bytes; p_val : py }.
Definition named (x : bytes) : bytes := match x with [] => [] | _ => x ++ [61] end.
Definition real_arg (p : piece) : bytes * bytes * bytes := (p_pre p, p_name p, p_real p).
Definition raw_arg (p : piece) : bytes * bytes * bytes := (p_pre p, p_name p, p_raw p).
Definition piece_ok (p : piece) : Prop :=
  arg_ok (raw_arg p) (p_val p) /\ clean (p_pre p) = true /\ clean (p_real p) = true /\
  forall b, norm b (p_pre p ++ named (p_name p) ++ p_real p) = norm b (p_pre p ++ named (p_name p) ++ p_raw p).

Lemma args_text_cons pre x s l tail : l <> [] -> args_text ((pre, x, s) :: l) tail = (pre ++ named x ++ s) ++ 44 :: args_text l tail.
Proof. intros N. destruct l as [|e l]; [congruence|]. generalize dependent (e :: l). intros m N. destruct m as [|e' m]; [congruence|].
  change (args_text ((pre, x, s) :: e' :: m) tail) with (pre ++ match x with [] => s ++ 44 :: args_text (e' :: m) tail | _ => x ++ 61 :: s ++ 44 :: args_text (e' :: m) tail end).
  generalize (args_text (e' :: m) tail). intros t. destruct x as [|c x]; cbn [named app]; rewrite <- !app_assoc; cbn [app]; rewrite <- ?app_assoc; reflexivity. Qed.
Lemma args_text_one pre x s tail : args_text [(pre, x, s)] tail = (pre ++ named x ++ s) ++ tail.
Proof. destruct x as [|c x]; cbn [args_text named app]; rewrite <- !app_assoc; cbn [app]; rewrite <- ?app_assoc; reflexivity. Qed.
Lemma args_text_app l tail r : args_text l (tail ++ r) = args_text l tail ++ r.
Proof.
  induction l as [|[[pre x] s] l IH]; [reflexivity|]. destruct l as [|e l].
  - rewrite !args_text_one, app_assoc. reflexivity.
  - rewrite !args_text_cons by discriminate. rewrite IH, <- !app_assoc. reflexivity.
Qed.
Lemma norm_args l tail : Forall piece_ok l -> forall b, norm b (args_text (map real_arg l) tail) = norm b (args_text (map raw_arg l) tail).
Proof.
  induction l as [|p l IH]; intros F b; [reflexivity|]. inversion F as [|? ? (_ & _ & _ & E) F']; subst. destruct l as [|q l].
  - cbn [map]. unfold real_arg, raw_arg. rewrite !args_text_one. apply norm_replace, E.
  - cbn [map]. unfold real_arg at 1, raw_arg at 1. rewrite !args_text_cons by discriminate.
    rewrite (norm_replace b _ _ _ (E b)). apply norm_after. cbn [norm]. change (44 =? 10) with false. change (44 =? 32) with false. rewrite andb_false_r.
    f_equal. apply (IH F').
Qed.
Lemma clean_args l tail : Forall piece_ok l -> clean tail = true -> clean (args_text (map real_arg l) tail) = true.
Proof.
  intros F T. induction l as [|p l IH]; [exact T|]. inversion F as [|? ? (A & C1 & C2 & _) F']; subst.
  assert (N : clean (named (p_name p)) = true).
  { destruct A as (_ & _ & G & _). destruct (p_name p) as [|c x]; [reflexivity|]. cbn [named]. rewrite clean_app, (clean_name (c :: x)) by (apply G; discriminate). reflexivity. }
  destruct l as [|q l].
  - cbn [map]. unfold real_arg. rewrite args_text_one, !clean_app, C1, N, C2, T. reflexivity.
  - cbn [map]. unfold real_arg at 1. rewrite args_text_cons by discriminate. rewrite clean_app, !clean_app, C1, N, C2, clean_cons.
    cbn [cleanc andb]. apply (IH F').
Qed.

Lemma norm_empty r : norm false r = [] -> r = [].
Proof. destruct r as [|c r]; [reflexivity|]. cbn [norm]. destruct (c =? 10); [discriminate|]. cbn [andb]. discriminate. Qed.
Lemma norm_first s : match s with [] => True | c :: _ => (c =? 32) = false end -> norm true s = norm false s.
Proof. destruct s as [|c r]; [reflexivity|]. intros H. cbn [norm]. destruct (c =? 10); [reflexivity|]. rewrite H. reflexivity. Qed.
Lemma strip_first s : match strip s with [] => True | c :: _ => (c =? 32) = false end.
Proof.
  rewrite strip_eq. assert (F : match lstrip s with [] => True | a :: _ => (a =? 32) = false end).
  { induction s as [|c s IH]; [exact I|]. cbn [lstrip]. destruct (spaceb c) eqn:S; [exact IH|]. destruct (Z.eqb_spec c 32); [subst; discriminate|reflexivity]. }
  destruct (lstrip s) as [|c r]; [exact I|]. cbn [rstrip]. destruct (rstrip r); [destruct (spaceb c); [exact I|exact F]|exact F].
Qed.

Definition stmt_text (lead cls : bytes) (l : list piece) (tail trail : bytes) : bytes :=
  lead ++ cls ++ 40 :: args_text (map real_arg l) (tail ++ 41 :: trail).
Definition stmt_ast (cls : bytes) (l : list piece) : py := YCall (YName cls) (map (fun p => (p_name p, p_val p)) l).

Theorem stmt_reads lead cls l tail trail :
  blankb lead = true -> clean lead = true -> blankb trail = true -> clean trail = true -> clean tail = true -> good_name cls = true ->
  l <> [] -> Forall piece_ok l -> ordered false (map p_name l) = true -> (forall rest, ends_call (tail ++ 41 :: rest) rest) ->
  exists v, Reads (strip (dedent (stmt_text lead cls l tail trail))) v /\ normv v = normv (stmt_ast cls l).
Proof.
  intros BL CL BT CT CTL G NE F O E.
  set (raw := cls ++ 40 :: args_text (map raw_arg l) tail ++ [41]).
  set (real := cls ++ 40 :: args_text (map real_arg l) tail).
  assert (T : stmt_text lead cls l tail trail = lead ++ (real ++ [41]) ++ trail).
  { unfold stmt_text, real. rewrite args_text_app. rewrite <- !app_assoc. cbn [app]. reflexivity. }
  assert (GR : good_text raw (stmt_ast cls l)).
  { unfold raw, stmt_ast. apply (good_call (YName cls)); [exact G|]. intros n rest L. rewrite <- args_text_app.
    set (q := map (fun p => (raw_arg p, p_val p)) l).
    assert (Q1 : map raw_arg l = map fst q) by (unfold q; rewrite map_map; reflexivity).
    assert (Q2 : map (fun p => (p_name p, p_val p)) l = map (fun e => (snd (fst (fst e)), snd e)) q) by (unfold q; rewrite map_map; reflexivity).
    rewrite Q1, Q2. apply arguments_all.
    - apply E.
    - unfold q. destruct l; [congruence|discriminate].
    - unfold q. apply Forall_map. eapply Forall_impl; [|exact F]. intros p (A & _). exact A.
    - unfold q. rewrite map_map. exact O.
    - rewrite <- Q1. rewrite <- (app_nil_l tail), args_text_app, app_length in L. lia. }
  set (code := strip (dedent (stmt_text lead cls l tail trail))).
  assert (CR : clean (stmt_text lead cls l tail trail) = true).
  { unfold stmt_text. rewrite !clean_app, clean_cons, CL, (clean_name cls G). cbn [cleanc andb]. apply clean_args; [exact F|]. rewrite clean_app, clean_cons, CTL, CT. reflexivity. }
  assert (SC : strip (stmt_text lead cls l tail trail) = real ++ [41]).
  { rewrite T. apply strip_core; [exact BL|exact BT| |reflexivity]. unfold real. destruct (good_first cls G) as (c & y & -> & LC & _).
    cbn [app]. unfold letterb in LC. unfold spaceb. lia. }
  assert (N : norm false code = norm false raw).
  { rewrite <- (norm_first code) by apply strip_first. unfold code. rewrite norm_code by exact CR. rewrite SC.
    assert (RR : real ++ [41] = cls ++ 40 :: args_text (map real_arg l) (tail ++ [41])) by (unfold real; rewrite args_text_app, <- app_assoc; reflexivity).
    assert (RW : raw = cls ++ 40 :: args_text (map raw_arg l) (tail ++ [41])) by (unfold raw; rewrite args_text_app; reflexivity).
    assert (FR : norm true raw = norm false raw).
    { apply norm_first. unfold raw. destruct (good_first cls G) as (c & y & -> & LC & _). cbn [app]. unfold letterb in LC. lia. }
    rewrite <- FR, RR, RW. apply norm_after. change (40 :: ?x) with ([40] ++ x). apply norm_after. apply norm_args. exact F. }
  pose proof (good_reads false raw _ GR (6 * List.length raw)%nat [] (stops_nil false) (nobar_nil false) (Nat.le_refl _)) as R. rewrite app_nil_r in R.
  set (n := (6 * List.length raw)%nat) in R. destruct (norm_all n) as (X & _).
  pose proof (X false raw) as X1. rewrite R in X1. cbn [nm] in X1. pose proof (X false code) as X2. rewrite N in X2. rewrite X1 in X2.
  destruct (expr n false code) as [[v r]|] eqn:EX; [|discriminate]. cbn [nm norm] in X2. apply some_inj in X2. apply pair_inj in X2 as [V R0].
  exists v. split; [|symmetry; exact V]. exists n. unfold read. rewrite EX. cbn [bind]. rewrite (norm_empty r (eq_sym R0)). reflexivity.
Qed.

(** Where no text between triple quotes is, the value is the same. *)
Fixpoint textless (v : py) : bool :=
  match v with
  | YText _ => false
  | YTuple l | YList l => forallb textless l
  | YDict l => forallb (fun e => textless (fst e) && textless (snd e)) l
  | YAttr e _ => textless e
  | YCall f l => textless f && forallb (fun e => textless (snd e)) l
  | YOr a b => textless a && textless b
  | _ => true
  end.
Lemma map_same {A} (f : A -> A) (l m : list A) : map f l = map f m -> Forall (fun x => forall w, f x = f w -> w = x) l -> m = l.
Proof.
  revert m. induction l as [|a l IH]; intros m E F; destruct m as [|b m]; try discriminate; [reflexivity|]. inversion F as [|? ? F1 F2]; subst.
  cbn [map] in E. injection E as E1 E2. rewrite (F1 _ E1), (IH m E2 F2). reflexivity.
Qed.
Lemma textless_same : forall v, textless v = true -> forall w, normv v = normv w -> w = v.
Proof.
  induction v using py_ind2; intros T w E; cbn [textless] in T; try discriminate; try (destruct w; cbn [normv] in E; try discriminate; congruence).
  - destruct w; cbn [normv] in E; try discriminate. injection E as E. f_equal. apply (map_same normv); [exact E|].
    rewrite forallb_forall in T. rewrite Forall_forall in H |- *. intros x I. apply H; [exact I|apply T, I].
  - destruct w; cbn [normv] in E; try discriminate. injection E as E. f_equal. apply (map_same normv); [exact E|].
    rewrite forallb_forall in T. rewrite Forall_forall in H |- *. intros x I. apply H; [exact I|apply T, I].
  - destruct w; cbn [normv] in E; try discriminate. injection E as E. f_equal. apply (map_same _ _ _ E).
    rewrite forallb_forall in T. rewrite Forall_forall in H |- *. intros [k x] I [k' x'] Q. cbn [fst snd] in Q. injection Q as Q1 Q2. specialize (T _ I). apply andb_prop in T as [T1 T2].
    destruct (H _ I) as [H1 H2]. cbn [fst snd] in *. rewrite (H1 T1 _ Q1), (H2 T2 _ Q2). reflexivity.
  - destruct w; cbn [normv] in E; try discriminate. injection E as E1 E2. subst. f_equal. apply IHv; assumption.
  - destruct w; cbn [normv] in E; try discriminate. injection E as E1 E2. apply andb_prop in T as [T1 T2]. f_equal; [apply IHv; assumption|]. apply (map_same _ _ _ E2).
    rewrite forallb_forall in T2. rewrite Forall_forall in H |- *. intros [k x] I [k' x'] Q. cbn [fst snd] in Q. injection Q as Q1 Q2. subst. specialize (T2 _ I). cbn [snd] in T2.
    rewrite (H _ I T2 _ Q2). reflexivity.
  - destruct w; cbn [normv] in E; try discriminate. injection E as E1 E2. apply andb_prop in T as [T1 T2]. f_equal; auto.
Qed.
