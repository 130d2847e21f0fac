(** Proofs about PyGraphicsModel. *)
From Coq Require Import ZArith List Bool String Lia.
From Verif Require Import Base BaseFacts RecordsModel RecordsProofs DecodeModel SheetProofs ParserModel AnnounceModel ExtractModel SpecExtract PyValue SpecPython PyTextModel PyReadProofs PyMonoProofs PyStripProofs PyPartsProofs PyTextProofs PyStmtProofs PyGraphicsModel SpecProgram.
Import ListNotations.
Open Scope string_scope.
Open Scope list_scope.
Open Scope Z_scope.

(** ** Lines and dedent *)
Lemma lines_app a b : lines (a ++ 10 :: b) = lines a ++ lines b.
Proof.
  induction a as [|c a IH]; [reflexivity|]. cbn [app lines]. rewrite IH. destruct (c =? 10); [reflexivity|]. destruct (lines_cons a) as (l & ls & E). rewrite E. reflexivity.
Qed.
Definition flat (s : bytes) : bool := forallb (fun c => negb (c =? 10)) s.
Lemma lines_flat s : flat s = true -> lines s = [s].
Proof. induction s as [|c s IH]; [reflexivity|]. cbn [flat forallb lines]. intros H. apply andb_prop in H as [A B]. destruct (c =? 10); [discriminate|]. rewrite IH by exact B. reflexivity. Qed.
Lemma flat_app a b : flat (a ++ b) = flat a && flat b. Proof. apply forallb_app. Qed.
Lemma tabs_app a b : tabs_only (a ++ b) = tabs_only a && tabs_only b. Proof. apply forallb_app. Qed.
Definition okl (s : bytes) : Prop := Forall (fun l => tabs_only l = true -> l = []) (lines s).
Lemma okl_app a b : okl a -> okl b -> okl (a ++ 10 :: b).
Proof. intros A B. unfold okl. rewrite lines_app. apply Forall_app. split; assumption. Qed.
Lemma okl_line s : flat s = true -> tabs_only s = false -> okl s.
Proof. intros F T. unfold okl. rewrite lines_flat by exact F. constructor; [rewrite T; discriminate|constructor]. Qed.
Lemma dedent_id c s : is_tab c = false -> (c =? 10) = false -> okl (c :: s) -> dedent (c :: s) = c :: s.
Proof.
  intros T N O. unfold dedent. assert (M : margin (lines (c :: s)) = Some []).
  { cbn [lines]. rewrite N. destruct (lines_cons s) as (l & ls & E). rewrite E. cbn [margin]. unfold tabs_only at 1. cbn [forallb]. rewrite T. cbn [andb indentation]. rewrite T. destruct (margin ls); reflexivity. }
  rewrite M. cbn [List.length]. transitivity (unlines (lines (c :: s))); [|apply unlines_lines]. f_equal. rewrite <- (map_id (lines (c :: s))) at 2. apply map_ext_in. intros l I.
  unfold okl in O. rewrite Forall_forall in O. destruct (tabs_only l) eqn:Tl; [symmetry; apply O; assumption|reflexivity].
Qed.

(** ** Expressions printed *)
Definition pg (x : string) : bytes := txt x.
Definition zoom_ast (z : Z) : py := if (0 <=? z) && (z <? 6) then YName (nth (Z.to_nat z) ZOOM_NAMES []) else YInt z.
Definition place_args (var : bytes) (x y w h : Z) : list (bytes * py) := [([], YName var); ([], YInt x); ([], YInt y); ([], YInt w); ([], YInt h)].
Definition FS : py := YName (txt "FileSprite").
Definition place_ast (var : bytes) (x y w h : Z) : py := YCall FS (place_args var x y w h).
Definition sprite_ast (var : bytes) (x y : Z) (s : gsprite) : py :=
  YCall FS (place_args var x y (g_width s) (g_height s) ++ [(txt "xofs", YInt (g_xofs s)); (txt "yofs", YInt (g_yofs s)); (txt "zoom", zoom_ast (g_zoom s))]).
Definition entry_ast (e : entry) : py :=
  let s := f_s (e_sprite e) in
  match e_colour e, e_mask e with
  | None, None => YName (txt "EMPTY_SPRITE")
  | Some r, Some m => YCall (YName (txt "WithMask")) [([], sprite_ast (file_var r) (e_x e) (e_y e) s); ([], place_ast (file_var m) (e_x e) (e_y e) (g_width s) (g_height s))]
  | Some p, None | None, Some p => sprite_ast (file_var p) (e_x e) (e_y e) s
  end.
Definition add_ast (l : list entry) : py := YCall (YAttr (YName (txt "g")) (txt "add")) (map (fun e => ([], entry_ast e)) l).
Definition import_ast (p : bytes) : py := YCall (YName (txt "ImageFile")) [([], YStr p)].

Lemma zoom_text z : 0 <= z -> zoom_str z = repr (zoom_ast z).
Proof. intros H. unfold zoom_str, zoom_ast. destruct ((0 <=? z) && (z <? 6)); [reflexivity|]. replace ((-6 <=? z) && (z <? 0)) with false by lia. reflexivity. Qed.
Lemma place_text var x y w h : place_str var x y w h ++ txt ")" = repr (place_ast var x y w h).
Proof. unfold place_str, place_ast, place_args, FS. cbn [repr map fst snd joins txt list_ascii_of_string]. rewrite <- !app_assoc. reflexivity. Qed.
Lemma sprite_text var x y s : 0 <= g_zoom s -> sprite_str var x y s = repr (sprite_ast var x y s).
Proof. intros Z0. unfold sprite_str, sprite_ast, place_str, place_args, FS. rewrite (zoom_text _ Z0). cbn [repr map fst snd joins app]. rewrite <- !app_assoc. reflexivity. Qed.
Definition goodv (v : bytes) : Prop := good_name v = true.
Lemma zoom_wfp z : wfp (zoom_ast z) = true.
Proof.
  unfold zoom_ast. destruct ((0 <=? z) && (z <? 6)) eqn:E; [|reflexivity]. assert (C : z = 0 \/ z = 1 \/ z = 2 \/ z = 3 \/ z = 4 \/ z = 5) by lia. destruct C as [-> | [-> | [-> | [-> | [-> | ->]]]]]; reflexivity.
Qed.
Lemma place_wfp var x y w h : goodv var -> wfp (place_ast var x y w h) = true.
Proof. intros G. unfold goodv in G. cbn. rewrite G. reflexivity. Qed.
Lemma sprite_wfp var x y s : goodv var -> wfp (sprite_ast var x y s) = true.
Proof.
  intros G. unfold goodv in G. unfold sprite_ast. cbn [wfp FS head_ok place_args app map fst snd forallb ordered]. rewrite G, zoom_wfp. reflexivity.
Qed.
(** The text of one sprite among the arguments of g.add. *)
Definition entry_text (e : entry) : bytes :=
  let s := f_s (e_sprite e) in
  match e_colour e, e_mask e with
  | Some r, Some m => txt "WithMask(" ++ [10] ++ txt "        " ++ repr (sprite_ast (file_var r) (e_x e) (e_y e) s) ++ [44; 10] ++
                      txt "        " ++ repr (place_ast (file_var m) (e_x e) (e_y e) (g_width s) (g_height s)) ++ [44; 10] ++ txt "    )"
  | _, _ => repr (entry_ast e)
  end.
Definition paths_of (e : entry) : list bytes := (match e_mask e with Some p => [p] | None => [] end) ++ (match e_colour e with Some p => [p] | None => [] end).
Definition paths (l : list entry) : list bytes := flat_map paths_of l.
Definition path_good (p : bytes) : Prop := goodv (file_var p).
Definition entry_fine (e : entry) : Prop := 0 <= g_zoom (f_s (e_sprite e)) /\ Forall path_good (paths_of e).

Lemma good_wfp v : wfp v = true -> good_text (repr v) v. Proof. apply repr_good. Qed.
Lemma arg_plain pre s v : skips pre -> good_text s v -> arg_ok (pre, [], s) v.
Proof. intros P [A B]. repeat split; [exact P|intros _ t S N; apply B; assumption|congruence|apply ureads_reads, A]. Qed.
Lemma entry_good_text e : entry_fine e -> good_text (entry_text e) (entry_ast e).
Proof.
  intros [Zm F]. unfold entry_text, entry_ast, paths_of in *. destruct (e_colour e) as [r|], (e_mask e) as [m|].
  - inversion F as [|? ? Gm F']; subst. inversion F' as [|? ? Gr F'']; subst.
    set (a := sprite_ast (file_var r) (e_x e) (e_y e) (f_s (e_sprite e))). set (b := place_ast _ _ _ _ _). assert (A : wfp a = true) by (apply sprite_wfp; exact Gr). assert (B : wfp b = true) by (apply place_wfp; exact Gm).
    set (q := [((10 :: txt "        ", [], repr a), a); ((10 :: txt "        ", [], repr b), b)] : list ((bytes * bytes * bytes) * py)).
    assert (E : txt "WithMask(" ++ [10] ++ txt "        " ++ repr a ++ [44; 10] ++ txt "        " ++ repr b ++ [44; 10] ++ txt "    )" = repr (YName (txt "WithMask")) ++ 40 :: args_text (map fst q) (44 :: 10 :: txt "    ") ++ [41]).
    { unfold q. cbn [map fst args_text repr]. change (txt "WithMask(") with (txt "WithMask" ++ [40]). change (txt "    )") with (txt "    " ++ [41]). generalize (repr a) (repr b) (txt "WithMask"). intros x y z. rewrite <- !app_assoc. cbn [app]. f_equal. f_equal.
      change (txt "        ") with (repeat 32 8). change (txt "    ") with (repeat 32 4). cbn [repeat app]. rewrite <- ?app_assoc. cbn [app]. rewrite <- ?app_assoc. reflexivity. }
    rewrite E. apply (good_call (YName (txt "WithMask"))); [reflexivity|]. intros n rest L. rewrite <- args_text_app. cbn [app].
    change (arguments n false (args_text (map fst q) (44 :: 10 :: txt "    " ++ 41 :: rest)) = Some (map (fun e => (snd (fst (fst e)), snd e)) q, rest)).
    apply arguments_all.
    + apply (ends_comma (10 :: txt "    ") rest). apply (skips_blank 4).
    + discriminate.
    + constructor; [|constructor; [|constructor]]; apply arg_plain; try apply (skips_blank 8); apply good_wfp; assumption.
    + reflexivity.
    + rewrite <- (app_nil_l (44 :: 10 :: txt "    ")), args_text_app, app_length in L. lia.
  - inversion F as [|? ? Gr F'']; subst. apply good_wfp, sprite_wfp. exact Gr.
  - inversion F as [|? ? Gm F']; subst. apply good_wfp, sprite_wfp. exact Gm.
  - apply good_wfp. reflexivity.
Qed.

(** ** The lines of g.add *)
Definition C (ps : list bytes) : resources := map (fun p => (p, file_var p)) ps.
Lemma C_get ps p : In p ps -> dict_get bytes_eq (C ps) p = Some (file_var p).
Proof.
  induction ps as [|q ps IH]; intros I; [destruct I|]. cbn [C map dict_get]. destruct (bytes_eq p q) eqn:E; [apply bytes_eq_iff in E; subst; reflexivity|]. destruct I as [<-|I]; [|apply IH, I].
  exfalso. assert (bytes_eq q q = true) by (apply bytes_eq_iff; reflexivity). congruence.
Qed.
Definition block_of (s : bytes) : bytes := txt "    " ++ s ++ (if ends_open s then [] else [44]) ++ [10].
Lemma ends_repr f args : ends_open (repr (YCall f args)) = false.
Proof. cbn [repr]. set (j := joins _ _). unfold ends_open. change (repr f ++ 40 :: j ++ [41]) with (repr f ++ (40 :: j) ++ [41]). rewrite app_assoc, rev_app_distr. reflexivity. Qed.
Lemma ends_app x f args : ends_open (x ++ repr (YCall f args)) = false.
Proof. cbn [repr]. set (j := joins _ _). unfold ends_open. change (repr f ++ 40 :: j ++ [41]) with (repr f ++ (40 :: j) ++ [41]). rewrite !app_assoc, rev_app_distr. reflexivity. Qed.
Lemma sprite_lines_of ps e : 0 <= g_zoom (f_s (e_sprite e)) -> incl (paths_of e) ps ->
  exists sl, sprite_lines (C ps) e = Some sl /\ sl <> [] /\ flat_map block_of sl = txt "    " ++ entry_text e ++ [44; 10] /\
    (forall s, sl = [s] -> s = entry_text e).
Proof.
  intros Zm I. destruct e as [[[[s x] y] m] r]. unfold sprite_lines, paths_of, entry_text, entry_ast, e_colour, e_mask, e_sprite, e_x, e_y in *. cbn [fst snd] in *.
  destruct r as [r|], m as [m|].
  - rewrite (C_get ps r), (C_get ps m) by (apply I; cbn; tauto). cbn [bind]. eexists. split; [reflexivity|]. split; [discriminate|]. split.
    + cbn [flat_map]. unfold block_of. rewrite (sprite_text _ _ _ _ Zm), place_text. unfold sprite_ast at 1 2, place_ast at 1 2. rewrite !ends_app.
      change (ends_open (txt "WithMask(")) with true. change (ends_open (txt ")")) with false. cbv iota. fold FS.
      change (YCall FS (place_args (file_var r) x y (g_width (f_s s)) (g_height (f_s s)) ++ _)) with (sprite_ast (file_var r) x y (f_s s)). change (YCall FS (place_args (file_var m) x y (g_width (f_s s)) (g_height (f_s s)))) with (place_ast (file_var m) x y (g_width (f_s s)) (g_height (f_s s))).
      generalize (repr (sprite_ast (file_var r) x y (f_s s))) (repr (place_ast (file_var m) x y (g_width (f_s s)) (g_height (f_s s)))). intros a b. change (txt "        ") with (txt "    " ++ txt "    "). change (txt "    )") with (txt "    " ++ txt ")"). rewrite <- !app_assoc. reflexivity.
    + intros q E. discriminate E.
  - rewrite (C_get ps r) by (apply I; cbn; tauto). cbn [bind]. eexists. split; [reflexivity|]. split; [discriminate|]. rewrite (sprite_text _ _ _ _ Zm). split; [|intros q E; injection E as <-; reflexivity].
    cbn [flat_map]. unfold block_of, sprite_ast. rewrite ends_repr. rewrite app_nil_r. reflexivity.
  - rewrite (C_get ps m) by (apply I; cbn; tauto). cbn [bind]. eexists. split; [reflexivity|]. split; [discriminate|]. rewrite (sprite_text _ _ _ _ Zm). split; [|intros q E; injection E as <-; reflexivity].
    cbn [flat_map]. unfold block_of, sprite_ast. rewrite ends_repr. rewrite app_nil_r. reflexivity.
  - eexists. split; [reflexivity|]. split; [discriminate|]. split; [reflexivity|]. intros q E. injection E as <-. reflexivity.
Qed.
Definition fine (l : list entry) : Prop := Forall entry_fine l.
Lemma all_lines_of ps l : fine l -> incl (paths l) ps ->
  exists sl, all_lines (C ps) l = Some sl /\ (List.length l <= List.length sl)%nat /\ flat_map block_of sl = flat_map (fun e => txt "    " ++ entry_text e ++ [44; 10]) l /\
    (forall s, sl = [s] -> exists e, l = [e] /\ s = entry_text e).
Proof.
  induction l as [|e l IH]; intros F I.
  - exists []. split; [reflexivity|]. split; [apply le_n|]. split; [reflexivity|]. intros s E. discriminate E.
  - inversion F as [|? ? [Zm _] F']; subst. cbn [paths flat_map] in I. destruct (sprite_lines_of ps e Zm) as (a & A & An & At & As); [intros p P; apply I, in_or_app; now left|].
    destruct (IH F') as (b & B & Bn & Bt & Bs); [intros p P; apply I, in_or_app; now right|]. exists (a ++ b). cbn [all_lines]. rewrite A. cbn [bind]. rewrite B. cbn [bind]. split; [reflexivity|].
    split; [destruct a; [congruence|]; rewrite app_length; cbn [List.length]; lia|]. split; [rewrite flat_map_app, At, Bt; reflexivity|].
    intros s E. destruct a as [|s1 a]; [congruence|]. destruct a; [|destruct a; discriminate E]. destruct b; [|discriminate E]. injection E as <-. exists e. split; [|apply As; reflexivity]. destruct l; [reflexivity|cbn in Bn; lia].
Qed.
Definition add_of (l : list entry) (sl : list bytes) : bytes := match sl with [s] => txt "g.add(" ++ s ++ txt ")" | _ => txt "g.add(" ++ [10] ++ flat_map block_of sl ++ txt ")" end.
Lemma add_text_of l sl : sl <> [] -> add_text sl = Some (add_of l sl).
Proof. destruct sl as [|s [|t sl]]; [congruence|reflexivity|reflexivity]. Qed.
(** The lines as arguments. *)
Definition pieces (pre : bytes) (l : list entry) : list (bytes * bytes * bytes) := map (fun e => (pre, [], entry_text e)) l.
Lemma args_lines l tail : l <> [] ->
  10 :: flat_map (fun e => txt "    " ++ entry_text e ++ [44; 10]) l ++ tail = args_text (pieces (10 :: txt "    ") l) (44 :: 10 :: tail).
Proof.
  unfold pieces.
  induction l as [|e l IH]; [congruence|]. intros _. cbn [map flat_map]. destruct l as [|e' l].
  - cbn [flat_map map]. rewrite args_text_one. cbn [named app]. rewrite <- !app_assoc. reflexivity.
  - rewrite args_text_cons by discriminate. rewrite <- IH by discriminate. cbn [named app]. rewrite <- !app_assoc. reflexivity.
Qed.
Lemma add_good l ps sl : l <> [] -> fine l -> incl (paths l) ps -> all_lines (C ps) l = Some sl -> good_text (add_of l sl) (add_ast l).
Proof.
  intros N F I A. destruct (all_lines_of ps l F I) as (sl' & A' & Ln & Lt & Ls). rewrite A in A'. apply some_inj in A'. subst sl'.
  assert (G : Forall (fun e => good_text (entry_text e) (entry_ast e)) l) by (revert F; apply Forall_impl; intros e; apply entry_good_text).
  assert (H : head_ok (YAttr (YName (txt "g")) (txt "add")) = true) by reflexivity.
  assert (M : forall pre tail, skips pre -> (forall rest, ends_call (tail ++ 41 :: rest) rest) ->
              good_text (repr (YAttr (YName (txt "g")) (txt "add")) ++ 40 :: args_text (pieces pre l) tail ++ [41]) (add_ast l)).
  { intros pre tail P E. apply good_call; [exact H|]. intros n rest L. rewrite <- args_text_app.
    set (q := map (fun e => ((pre, [], entry_text e), entry_ast e)) l : list ((bytes * bytes * bytes) * py)).
    assert (Q1 : pieces pre l = map fst q) by (unfold q, pieces; rewrite map_map; reflexivity).
    assert (Q2 : map (fun e : entry => (@nil Z, entry_ast e)) l = map (fun e => (snd (fst (fst e)), snd e)) q) by (unfold q; rewrite map_map; reflexivity).
    rewrite Q2, Q1. apply arguments_all.
    - apply E.
    - unfold q. destruct l; [congruence|discriminate].
    - unfold q. apply Forall_map. revert G. apply Forall_impl. intros e Ge. apply arg_plain; assumption.
    - unfold q. rewrite map_map. cbn [fst snd]. clear. induction l; [reflexivity|assumption].
    - rewrite <- Q1. rewrite <- (app_nil_l tail), args_text_app, app_length in L. lia. }
  destruct sl as [|s [|t sl]].
  - destruct l; [congruence|cbn in Ln; lia].
  - destruct (Ls s eq_refl) as (e & -> & ->). specialize (M [] [] (fun t => eq_refl) ends_nil). rewrite app_nil_r in M || idtac. cbn [pieces map args_text app] in M. rewrite app_nil_r in M. exact M.
  - unfold add_of. rewrite Lt. specialize (M (10 :: txt "    ") [44; 10] (skips_blank 4)).
    assert (E : forall rest, ends_call ([44; 10] ++ 41 :: rest) rest) by (intros rest; apply (ends_comma [10]); apply (skips_blank 0)).
    specialize (M E). rewrite <- (args_lines l [] N), app_nil_r in M. exact M.
Qed.

(** ** Files *)
Definition plain (p : bytes) : bool := forallb (fun c => (32 <=? c) && (c <? 127) && negb (c =? 39) && negb (c =? 92)) p.
Definition path_ok (p : bytes) : Prop := plain p = true /\ goodv (file_var p) /\ existsb (same (file_var p)) RESERVED = false.
Definition var_line (p : bytes) : bytes := file_var p ++ txt " = ImageFile('" ++ p ++ txt "')" ++ [10].
Fixpoint added (ps l : list bytes) : list bytes :=
  match l with [] => [] | p :: r => if existsb (bytes_eq p) ps then added ps r else p :: added (ps ++ [p]) r end.
Lemma C_none ps p : existsb (bytes_eq p) ps = false -> dict_get bytes_eq (C ps) p = None /\ dict_set bytes_eq (C ps) p (file_var p) = C (ps ++ [p]).
Proof.
  induction ps as [|q ps IH]; [split; reflexivity|]. cbn [existsb]. intros H. apply orb_false_elim in H as [A B]. destruct (IH B) as [X Y]. cbn [C map dict_get dict_set app]. rewrite A. split; [exact X|]. f_equal. exact Y.
Qed.
Lemma in_existsb ps p : existsb (bytes_eq p) ps = true <-> In p ps.
Proof. rewrite existsb_exists. split; [intros (q & I & E); apply bytes_eq_iff in E; subst; exact I|intros I; exists p; split; [exact I|apply bytes_eq_iff; reflexivity]]. Qed.
Lemma var_step p res ps : make_file_var (Some p) (res, C ps) = (res ++ flat_map var_line (added ps [p]), C (ps ++ added ps [p])).
Proof.
  unfold make_file_var. cbn [added]. destruct (existsb (bytes_eq p) ps) eqn:E.
  - apply in_existsb in E. rewrite (C_get ps p E). cbn [flat_map]. rewrite !app_nil_r. reflexivity.
  - destruct (C_none ps p E) as [-> ->]. cbn [flat_map]. unfold var_line. rewrite app_nil_r. reflexivity.
Qed.
Lemma added_app ps a b : added ps (a ++ b) = added ps a ++ added (ps ++ added ps a) b.
Proof.
  revert ps. induction a as [|p a IH]; intros ps; cbn [app added]; [rewrite app_nil_r; reflexivity|]. destruct (existsb (bytes_eq p) ps); [apply IH|]. cbn [app]. rewrite IH, <- app_assoc. reflexivity.
Qed.
Lemma var_opt o res ps : make_file_var o (res, C ps) = let l := added ps (match o with Some p => [p] | None => [] end) in (res ++ flat_map var_line l, C (ps ++ l)).
Proof. destruct o as [p|]; [apply var_step|]. cbn. rewrite !app_nil_r. reflexivity. Qed.
Lemma var_fold : forall l res ps, fold_left (fun st e => let '(_, m_path, rgba_path) := e in make_file_var rgba_path (make_file_var m_path st)) l (res, C ps) =
  (res ++ flat_map var_line (added ps (paths l)), C (ps ++ added ps (paths l))).
Proof.
  induction l as [|e l IH]; intros res ps; [cbn; rewrite !app_nil_r; reflexivity|]. cbn [fold_left]. assert (E : (let '(_, m, r) := e in make_file_var r (make_file_var m (res, C ps))) = (res ++ flat_map var_line (added ps (paths_of e)), C (ps ++ added ps (paths_of e)))).
  { destruct e as [[[[s x] y] m] r]. unfold paths_of, e_mask, e_colour. cbn [fst snd]. rewrite var_opt. cbv zeta. rewrite var_opt. cbv zeta. rewrite added_app, flat_map_app, <- !app_assoc. reflexivity. }
  rewrite E, IH. cbn [paths flat_map]. fold (paths l). rewrite added_app, flat_map_app, <- !app_assoc. reflexivity.
Qed.
Lemma added_in ps l p : In p l -> In p (ps ++ added ps l).
Proof.
  revert ps. induction l as [|q l IH]; intros ps I; [destruct I|]. cbn [added]. destruct (existsb (bytes_eq q) ps) eqn:E.
  - destruct I as [->|I]; [apply in_or_app; left; apply in_existsb, E|apply IH, I].
  - destruct I as [->|I]; [apply in_or_app; right; now left|]. specialize (IH (ps ++ [q]) I). rewrite <- app_assoc in IH. exact IH.
Qed.
Lemma added_from ps l p : In p (added ps l) -> In p l.
Proof. revert ps. induction l as [|q l IH]; intros ps I; [destruct I|]. cbn [added] in I. destruct (existsb (bytes_eq q) ps); [right; exact (IH _ I)|destruct I as [<-|I]; [now left|right; exact (IH _ I)]]. Qed.

(** ** The text is tidy *)
Lemma flat_digits s : forallb digitb s = true -> flat s = true.
Proof. unfold flat. rewrite !forallb_forall. intros H c I. specialize (H c I). unfold digitb in H. lia. Qed.
Lemma flat_int n : flat (str_int n) = true.
Proof.
  unfold str_int, str_nat. destruct (n <? 0) eqn:E; [cbn [flat forallb negb]; change (flat (dec_digits (S (Z.to_nat (- n))) (- n)) = true)|]; apply flat_digits, dec_digits_digits; lia.
Qed.
Lemma flat_good v : goodv v -> flat v = true.
Proof.
  intros G. destruct (good_first v G) as (c & y & E & _ & I & _). unfold flat. rewrite forallb_forall in *. intros a Ia. specialize (I a Ia). unfold identb, letterb, digitb in I. lia.
Qed.
Lemma flat_zoom z : flat (zoom_str z) = true.
Proof.
  unfold zoom_str. destruct ((0 <=? z) && (z <? 6)) eqn:E.
  - assert (X : z = 0 \/ z = 1 \/ z = 2 \/ z = 3 \/ z = 4 \/ z = 5) by lia. destruct X as [-> | [-> | [-> | [-> | [-> | ->]]]]]; reflexivity.
  - destruct ((-6 <=? z) && (z <? 0)) eqn:F; [|apply flat_int]. assert (X : z = -6 \/ z = -5 \/ z = -4 \/ z = -3 \/ z = -2 \/ z = -1) by lia. destruct X as [-> | [-> | [-> | [-> | [-> | ->]]]]]; reflexivity.
Qed.
Lemma flat_place v x y w h : goodv v -> flat (place_str v x y w h) = true.
Proof. intros G. unfold place_str. rewrite !flat_app, (flat_good v G), !flat_int. reflexivity. Qed.
Lemma flat_sprite v x y s : goodv v -> flat (sprite_str v x y s) = true.
Proof. intros G. unfold sprite_str. rewrite !flat_app, (flat_place v _ _ _ _ G), !flat_int, flat_zoom. reflexivity. Qed.
Definition tidy (s : bytes) : Prop := flat s = true /\ tabs_only s = false.
Lemma tidy_sprite_lines ps e sl : Forall path_good (paths_of e) -> incl (paths_of e) ps -> sprite_lines (C ps) e = Some sl -> Forall tidy sl.
Proof.
  intros G I E. destruct e as [[[[s x] y] m] r]. unfold sprite_lines, paths_of, e_colour, e_mask in *. cbn [fst snd] in *. destruct r as [r|], m as [m|].
  - rewrite (C_get ps r), (C_get ps m) in E by (apply I; cbn; tauto). cbn [bind] in E. apply some_inj in E. subst sl. inversion G as [|? ? Gm G']; subst. inversion G' as [|? ? Gr G'']; subst.
    constructor; [split; reflexivity|]. constructor; [split; [rewrite flat_app, flat_sprite by exact Gr; reflexivity|rewrite tabs_app; reflexivity]|]. constructor; [split; [rewrite !flat_app, flat_place by exact Gm; reflexivity|rewrite !tabs_app; reflexivity]|]. constructor; [split; reflexivity|constructor].
  - rewrite (C_get ps r) in E by (apply I; cbn; tauto). cbn [bind] in E. apply some_inj in E. subst sl. inversion G as [|? ? Gr G']; subst. constructor; [split; [apply flat_sprite, Gr|reflexivity]|constructor].
  - rewrite (C_get ps m) in E by (apply I; cbn; tauto). cbn [bind] in E. apply some_inj in E. subst sl. inversion G as [|? ? Gr G']; subst. constructor; [split; [apply flat_sprite, Gr|reflexivity]|constructor].
  - apply some_inj in E. subst sl. constructor; [split; reflexivity|constructor].
Qed.
Lemma tidy_all_lines ps : forall l sl, fine l -> incl (paths l) ps -> all_lines (C ps) l = Some sl -> Forall tidy sl.
Proof.
  induction l as [|e l IH]; intros sl F I E; cbn [all_lines] in E; [apply some_inj in E; subst; constructor|]. inversion F as [|? ? [_ Fe] F']; subst. cbn [paths flat_map] in I.
  apply bind_some in E as (a & A & E). apply bind_some in E as (b & B & E). apply some_inj in E. subst sl. apply Forall_app. split.
  - apply (tidy_sprite_lines ps e a Fe); [intros p P; apply I, in_or_app; now left|exact A].
  - apply IH; [exact F'|intros p P; apply I, in_or_app; now right|exact B].
Qed.
Lemma okl_blocks sl t : Forall tidy sl -> okl t -> okl (flat_map block_of sl ++ t).
Proof.
  intros F T. induction F as [|s sl [A B] F IH]; [exact T|]. cbn [flat_map]. unfold block_of at 1. rewrite <- !app_assoc. cbn [app]. rewrite (app_assoc (txt "    ")), app_assoc. apply okl_app; [|exact IH].
  apply okl_line; [rewrite !flat_app, A; destruct (ends_open s); reflexivity|rewrite !tabs_app, B, !andb_false_r; reflexivity].
Qed.
Lemma okl_add l sl : Forall tidy sl -> okl (add_of l sl).
Proof.
  intros F. assert (M : okl (txt "g.add(" ++ [10] ++ flat_map block_of sl ++ txt ")")).
  { cbn [app]. change (txt "g.add(" ++ 10 :: flat_map block_of sl ++ txt ")") with (txt "g.add(" ++ 10 :: (flat_map block_of sl ++ txt ")")). apply okl_app; [apply okl_line; reflexivity|]. apply okl_blocks; [exact F|]. apply okl_line; reflexivity. }
  destruct sl as [|s [|t sl]]; [exact M| |exact M]. inversion F as [|? ? [A B] _]; subst. unfold add_of. apply okl_line; [rewrite !flat_app, A; reflexivity|rewrite !tabs_app; reflexivity].
Qed.
Lemma plain_flat p : plain p = true -> flat p = true.
Proof. unfold plain, flat. rewrite !forallb_forall. intros H c I. specialize (H c I). lia. Qed.
Lemma okl_vars ps t : Forall path_ok ps -> okl t -> okl (flat_map var_line ps ++ t).
Proof.
  intros F T. induction F as [|p ps (P & G & _) F IH]; [exact T|]. cbn [flat_map]. unfold var_line at 1. rewrite <- !app_assoc. cbn [app]. rewrite (app_assoc p), (app_assoc (txt _)), app_assoc. apply okl_app; [|exact IH].
  apply okl_line; [rewrite !flat_app, (flat_good _ G), (plain_flat p P); reflexivity|].
  rewrite !tabs_app. destruct (good_first _ G) as (c & y & -> & L & _). unfold tabs_only at 1. cbn [forallb]. unfold is_tab, letterb in *. replace ((c =? 32) || (c =? 9)) with false by lia. reflexivity.
Qed.
Lemma add_of_ends l sl : exists x, add_of l sl = 103 :: x ++ [41].
Proof.
  unfold add_of. change (txt "g.add(") with (103 :: txt ".add("). change (txt ")") with [41]. destruct sl as [|s [|t sl]].
  - exists (txt ".add(" ++ [10]). reflexivity.
  - exists (txt ".add(" ++ s). cbn [app]. rewrite <- ?app_assoc. reflexivity.
  - exists (txt ".add(" ++ [10] ++ flat_map block_of (s :: t :: sl)). rewrite <- ?app_assoc. reflexivity.
Qed.

(** ** Statements *)
Definition statements_of (ps : list bytes) (l : list entry) : list (option bytes * py) :=
  map (fun p => (Some (file_var p), import_ast p)) (added ps (paths l)) ++ [(None, add_ast l)].
Fixpoint all_statements (ps : list bytes) (ls : list (list entry)) : list (option bytes * py) :=
  match ls with [] => [] | l :: r => statements_of ps l ++ all_statements (ps ++ added ps (paths l)) r end.
(** A line of the program. *)
Definition line_reads (s : bytes) (st : option bytes * py) : Prop :=
  exists m, forall n, (m <= n)%nat -> forall rest, statement n (s ++ 10 :: rest) = Some (st, 10 :: rest).
Lemma nl_stops rest : stops false (10 :: rest) /\ nobar false (10 :: rest).
Proof. split; [reflexivity|exact I]. Qed.
Lemma name_line v rest : goodv v -> match rest with [] => True | c :: _ => identb c = false /\ quoteb c = false end -> name (v ++ rest) = Some (v, rest).
Proof. intros G H. apply name_app; [exact G|exact H]. Qed.
Lemma repr_plain p : plain p = true -> repr_chars p = 39 :: p ++ [39].
Proof.
  intros P. assert (Q : repr_quote p = 39).
  { unfold repr_quote. assert (E : existsb (Z.eqb 39) p = false); [|rewrite E; reflexivity]. destruct (existsb (Z.eqb 39) p) eqn:E; [|reflexivity]. apply existsb_exists in E as (c & I & E). apply Z.eqb_eq in E. subst c. unfold plain in P. rewrite forallb_forall in P. specialize (P 39 I). discriminate P. }
  unfold repr_chars. rewrite Q. f_equal. f_equal. clear Q. induction p as [|c p IH]; [reflexivity|]. cbn [plain forallb] in P. apply andb_prop in P as [A B]. cbn [flat_map]. rewrite IH by exact B.
  unfold repr_esc. replace ((c =? 39) || (c =? 92)) with false by lia. replace (c =? 9) with false by lia. replace (c =? 10) with false by lia. replace (c =? 13) with false by lia. replace ((c <? 32) || (127 <=? c)) with false by lia. reflexivity.
Qed.
Lemma plain_ascii p : plain p = true -> forallb asciib p = true.
Proof. unfold plain. rewrite !forallb_forall. intros H c I. specialize (H c I). unfold asciib. lia. Qed.
Lemma import_text p : plain p = true -> txt "ImageFile('" ++ p ++ txt "')" = repr (import_ast p).
Proof. intros P. unfold import_ast. cbn [repr map fst snd joins]. rewrite (repr_plain p P). change (txt "ImageFile('") with (txt "ImageFile" ++ [40; 39]). rewrite <- app_assoc. cbn [app]. rewrite <- app_assoc. reflexivity. Qed.
Lemma var_reads p : path_ok p -> line_reads (file_var p ++ txt " = ImageFile('" ++ p ++ txt "')") (Some (file_var p), import_ast p).
Proof.
  intros (P & G & _). assert (W : good_text (repr (import_ast p)) (import_ast p)) by (apply good_wfp; cbn; rewrite (plain_ascii p P); reflexivity).
  exists (6 * S (List.length (repr (import_ast p))))%nat. intros n L rest. rewrite <- !app_assoc.
  change (txt " = ImageFile('") with (txt " = " ++ txt "ImageFile('"). rewrite <- !app_assoc. rewrite (app_assoc (txt "ImageFile('")), (app_assoc (_ ++ p)), <- (app_assoc (txt "ImageFile('") p), (import_text p P).
  unfold statement. rewrite (name_line _ _ G) by (split; reflexivity). change (ws false (txt " = " ++ ?x)) with (61 :: 32 :: x). cbv iota.
  destruct (nl_stops rest) as [S1 S2]. pose proof (ureads_reads _ _ _ (ureads_space false _ _ (proj1 W false)) n (10 :: rest) S1 S2 ltac:(cbn [List.length]; lia)) as E. cbn [app] in E.
  change (ws false (txt " = " ++ repr (import_ast p) ++ 10 :: rest)) with (61 :: 32 :: repr (import_ast p) ++ 10 :: rest). cbv iota. rewrite E. reflexivity.
Qed.
Lemma expr_reads s e y : s = txt "g.add(" ++ y -> good_text s e -> line_reads s (None, e).
Proof.
  intros Es W. exists (6 * List.length s)%nat. intros n L rest. destruct (nl_stops rest) as [S1 S2]. pose proof (good_reads false _ _ W n (10 :: rest) S1 S2 L) as E.
  assert (N : name (s ++ 10 :: rest) = Some (txt "g", txt ".add(" ++ y ++ 10 :: rest)).
  { rewrite Es, <- app_assoc. change (txt "g.add(") with (txt "g" ++ txt ".add("). rewrite <- app_assoc. apply name_app; [reflexivity|split; reflexivity]. }
  unfold statement. rewrite N. change (ws false (txt ".add(" ++ y ++ 10 :: rest)) with (46 :: txt "add(" ++ y ++ 10 :: rest). cbv iota. rewrite E. reflexivity.
Qed.
Definition reads_as (s : bytes) (l : list (option bytes * py)) : Prop := exists m, forall n, (m <= n)%nat -> program n s = Some l.
Lemma reads_nil : reads_as [] []. Proof. exists 1%nat. intros n L. destruct n; [lia|]. reflexivity. Qed.
Lemma reads_blank s l : reads_as s l -> reads_as (10 :: s) l.
Proof. intros [m H]. exists (S m). intros n L. destruct n as [|n]; [lia|]. cbn [program]. change (ws false (10 :: s)) with (10 :: s). cbv iota. apply H. lia. Qed.
Lemma reads_line c s st t l : letterb c = true -> line_reads (c :: s) st -> reads_as t l -> reads_as (c :: s ++ 10 :: t) (st :: l).
Proof.
  intros Lc [m A] [k B]. exists (S (Nat.max m k)). intros n L. destruct n as [|n]; [lia|]. cbn [program]. destruct (letter_ws false c (s ++ 10 :: t) Lc) as (W & _). rewrite W. pose proof (A n ltac:(lia) t) as E. cbn [app] in E. rewrite E. cbn [bind].
  change (ws false (10 :: t)) with (10 :: t). cbv iota. rewrite B by lia. cbn [bind].
  unfold letterb in Lc. assert (N10 : c <> 10) by lia. assert (N32 : c <> 32) by lia.
  assert (G : forall (X Y Z : option (list (option bytes * py))), match c with 10 => X | _ => match c with 32 => Y | _ => Z end end = Z).
  { intros X Y Z'. destruct c as [|p|p]; try reflexivity. repeat (destruct p as [p|p|]; try reflexivity); congruence. }
  exact (G _ _ _).
Qed.
Lemma reads_vars ps t l : Forall path_ok ps -> reads_as t l -> reads_as (flat_map var_line ps ++ t) (map (fun p => (Some (file_var p), import_ast p)) ps ++ l).
Proof.
  intros F R. induction F as [|p ps P F IH]; [exact R|]. cbn [flat_map map app]. pose proof (var_reads p P) as V. destruct P as (P & G & _). destruct (good_first _ G) as (c & y & E & L & _).
  unfold var_line at 1. rewrite E in *. cbn [app]. rewrite <- !app_assoc. pose proof (reads_line c (y ++ txt " = ImageFile('" ++ p ++ txt "')") _ (flat_map var_line ps ++ t) _ L V IH) as X. rewrite <- !app_assoc in X. exact X.
Qed.
Lemma vars_first ps x : Forall path_ok ps -> exists c s, flat_map var_line ps ++ 103 :: x ++ [41] = (c :: s) ++ [41] /\ letterb c = true.
Proof.
  intros F. destruct F as [|p qs (P & G & _) F]; [exists 103, x; split; reflexivity|]. destruct (good_first _ G) as (c & y & E & L & _).
  exists c, (y ++ (txt " = ImageFile('" ++ p ++ txt "')" ++ [10]) ++ flat_map var_line qs ++ 103 :: x). split; [|exact L]. cbn [flat_map]. unfold var_line at 1. rewrite E. cbn [app]. rewrite <- !app_assoc. reflexivity.
Qed.
Lemma program_text : forall ls ps, Forall (fun l => l <> [] /\ fine l /\ Forall path_ok (paths l)) ls ->
  exists t, graphics_program (C ps) ls = Some t /\ reads_as t (all_statements ps ls).
Proof.
  induction ls as [|l ls IH]; intros ps F; [exists []; split; [reflexivity|apply reads_nil]|]. inversion F as [|? ? (N & Fl & Fp) F']; subst. cbn [graphics_program all_statements]. unfold graphics_py. rewrite var_fold.
  set (new := added ps (paths l)). assert (Inc : incl (paths l) (ps ++ new)) by (intros p I; apply added_in, I).
  destruct (all_lines_of (ps ++ new) l Fl Inc) as (sl & A & Ln & _ & _). rewrite A. cbn [bind]. assert (Ns : sl <> []) by (intros ->; destruct l; [congruence|cbn in Ln; lia]). rewrite (add_text_of l sl Ns). cbn [bind app].
  set (t := flat_map var_line new ++ add_of l sl). assert (Fn : Forall path_ok new) by (apply Forall_forall; intros p I; rewrite Forall_forall in Fp; apply Fp, (added_from ps), I).
  assert (O : okl t) by (apply okl_vars; [exact Fn|apply okl_add, (tidy_all_lines (ps ++ new) l sl Fl Inc A)]).
  destruct (add_of_ends l sl) as (x & Ex). assert (H : exists c s, t = (c :: s) ++ [41] /\ letterb c = true).
  { unfold t. rewrite Ex. apply vars_first, Fn. }
  destruct H as (c & s & Et & Lc). assert (Sd : strip (dedent t) = t).
  { assert (D : dedent t = t) by (rewrite Et in *; apply dedent_id; [unfold is_tab; unfold letterb in Lc; lia|unfold letterb in Lc; lia|exact O]). rewrite D. pose proof (strip_core [] (c :: s) [] 41 eq_refl eq_refl) as X. rewrite app_nil_r in X. rewrite Et. apply X; [unfold spaceb; unfold letterb in Lc; lia|reflexivity]. }
  rewrite Sd. destruct (IH (ps ++ new) F') as (rest & Er & Rr). rewrite Er. cbn [bind]. eexists. split; [reflexivity|].
  unfold statements_of. fold new. rewrite <- app_assoc. unfold t at 1. rewrite <- app_assoc. apply reads_vars; [exact Fn|]. cbn [app]. rewrite Ex. cbn [app].
  assert (W : reads_as ((if existsb (Z.eqb 10) t then [10] else []) ++ rest) (all_statements (ps ++ new) ls)) by (destruct (existsb (Z.eqb 10) t); [apply reads_blank|]; exact Rr).
  apply reads_line; [reflexivity| |exact W]. rewrite <- Ex. assert (Y : exists y, add_of l sl = txt "g.add(" ++ y) by (unfold add_of; destruct sl as [|? [|? ?]]; eexists; reflexivity). destruct Y as [y Ey].
  apply (expr_reads _ _ y Ey). apply (add_good l (ps ++ new) sl N Fl Inc A).
Qed.

(** ** Running it *)
Lemma same_refl x : same x x = true. Proof. apply same_iff. reflexivity. Qed.
Lemma zoom_run z : number_value (zoom_ast z) = Some z.
Proof.
  unfold zoom_ast. destruct ((0 <=? z) && (z <? 6)) eqn:E; [|reflexivity]. assert (X : z = 0 \/ z = 1 \/ z = 2 \/ z = 3 \/ z = 4 \/ z = 5) by lia. destruct X as [-> | [-> | [-> | [-> | [-> | ->]]]]]; reflexivity.
Qed.
Lemma call_fs v x y w h a b z : call FILE_SPRITE (place_args v x y w h ++ [(txt "xofs", a); (txt "yofs", b); (txt "zoom", z)]) =
  Some [YName v; YInt x; YInt y; YInt w; YInt h; a; b; z; YNone; YBool true; YNone].
Proof. reflexivity. Qed.
Lemma call_place v x y w h : call FILE_SPRITE (place_args v x y w h) = Some [YName v; YInt x; YInt y; YInt w; YInt h; YInt 0; YInt 0; YInt 0; YNone; YBool true; YNone].
Proof. reflexivity. Qed.
Lemma run_sprite v p x y s : variable (file_var p) v = Some p -> file_sprite v (sprite_ast (file_var p) x y s) = Some (mk_picture (p, x, y, g_width s, g_height s) (g_xofs s) (g_yofs s) (g_zoom s) None).
Proof.
  intros V. unfold file_sprite, sprite_ast, called, FS. rewrite same_refl. cbn [bind]. rewrite call_fs. cbn [bind]. unfold file_value. rewrite V. cbn [bind number_value]. rewrite zoom_run. reflexivity.
Qed.
Lemma run_place v p x y w h : variable (file_var p) v = Some p -> file_sprite v (place_ast (file_var p) x y w h) = Some (mk_picture (p, x, y, w, h) 0 0 0 None).
Proof. intros V. unfold file_sprite, place_ast, called, FS. rewrite same_refl. cbn [bind]. rewrite call_place. cbn [bind]. unfold file_value. rewrite V. reflexivity. Qed.
Definition known (ps : list bytes) (v : env) : Prop := forall p, In p ps -> variable (file_var p) v = Some p.
Lemma run_entry ps v e : known ps v -> incl (paths_of e) ps -> picture_value v (entry_ast e) = shown e.
Proof.
  intros K I. unfold entry_ast, shown, paths_of in *. destruct (e_colour e) as [r|], (e_mask e) as [m|].
  - unfold picture_value. change (called "WithMask" (YCall (YName (txt "WithMask")) ?a)) with (Some a). cbv iota.
    change (call WITH_MASK [([], ?a); ([], ?b)]) with (Some [a; b; YNone; YNone]). cbn [bind]. rewrite run_sprite by (apply K, I; cbn; tauto). cbn [bind]. rewrite run_place by (apply K, I; cbn; tauto). reflexivity.
  - unfold picture_value. assert (X : called "WithMask" (sprite_ast (file_var r) (e_x e) (e_y e) (f_s (e_sprite e))) = None) by reflexivity. rewrite X. apply run_sprite. apply K, I. cbn; tauto.
  - unfold picture_value. assert (X : called "WithMask" (sprite_ast (file_var m) (e_x e) (e_y e) (f_s (e_sprite e))) = None) by reflexivity. rewrite X. apply run_sprite. apply K, I. cbn; tauto.
  - reflexivity.
Qed.
Lemma run_add ps v l : known ps v -> incl (paths l) ps -> adds v (add_ast l) = all_shown l.
Proof.
  intros K I. unfold adds, add_ast. change (same (txt "g") (txt "g") && same (txt "add") (txt "add")) with true. cbv iota.
  assert (X : keywords (map (fun e => (@nil Z, entry_ast e)) l) = []) by (clear; induction l; [reflexivity|assumption]). rewrite X.
  assert (Y : positionals (map (fun e => (@nil Z, entry_ast e)) l) = map entry_ast l) by (clear; unfold positionals; induction l as [|e l IH]; [reflexivity|]; cbn; f_equal; exact IH). rewrite Y.
  clear X Y. induction l as [|e l IH]; [reflexivity|]. cbn [paths flat_map] in I. cbn [map all_values all_shown]. rewrite (run_entry ps v e K) by (intros p P; apply I, in_or_app; now left). rewrite IH by (intros p P; apply I, in_or_app; now right). reflexivity.
Qed.
Lemma run_import p : file_made (import_ast p) = Some p. Proof. reflexivity. Qed.
Lemma run_vars qs : forall ps v r, known ps v -> Forall path_ok qs -> (forall p q, In p (ps ++ qs) -> In q (ps ++ qs) -> file_var p = file_var q -> p = q) ->
  exists w, run v (map (fun p => (Some (file_var p), import_ast p)) qs ++ r) = run w r /\ known (ps ++ qs) w.
Proof.
  induction qs as [|p qs IH]; intros ps v r K F D; [exists v; rewrite app_nil_r; split; [reflexivity|exact K]|]. inversion F as [|? ? (P & G & R) F']; subst. cbn [map app run]. rewrite R. cbn [negb]. rewrite run_import. cbn [bind].
  destruct (IH (ps ++ [p]) ((file_var p, p) :: v) r) as (w & E & K'); [| exact F' | rewrite <- app_assoc; exact D |].
  - intros q I. cbn [variable]. destruct (same (file_var q) (file_var p)) eqn:S.
    + apply same_iff in S. f_equal. symmetry. apply D; [apply in_or_app; apply in_app_or in I as [I|[<-|[]]]; [now left|right; now left]|apply in_or_app; right; now left|exact S].
    + apply in_app_or in I as [I|[<-|[]]]; [apply K, I|]. rewrite same_refl in S. discriminate.
  - exists w. split; [exact E|]. rewrite <- app_assoc in K'. exact K'.
Qed.
Lemma run_all : forall ls ps v, known ps v -> Forall (fun l => Forall path_ok (paths l)) ls ->
  (forall p q, In p (ps ++ flat_map paths ls) -> In q (ps ++ flat_map paths ls) -> file_var p = file_var q -> p = q) -> run v (all_statements ps ls) = all_pictures ls.
Proof.
  induction ls as [|l ls IH]; intros ps v K F D; [reflexivity|]. inversion F as [|? ? Fl F']; subst. cbn [all_statements all_pictures]. unfold statements_of. rewrite <- app_assoc. cbn [flat_map] in D.
  set (new := added ps (paths l)). assert (Sub : forall p, In p (ps ++ new) -> In p (ps ++ paths l)) by (intros p I; apply in_app_or in I as [I|I]; apply in_or_app; [now left|right; exact (added_from _ _ _ I)]).
  destruct (run_vars new ps v ([(None, add_ast l)] ++ all_statements (ps ++ new) ls) K) as (w & E & K').
  - apply Forall_forall. intros p I. rewrite Forall_forall in Fl. apply Fl, (added_from ps), I.
  - intros p q I J. apply D; [apply Sub in I; rewrite app_assoc; apply in_or_app; now left|apply Sub in J; rewrite app_assoc; apply in_or_app; now left].
  - rewrite E. cbn [app run]. rewrite (run_add (ps ++ new) w l K') by (intros p I; apply added_in, I). rewrite (IH (ps ++ new) w K' F'); [reflexivity|].
    intros p q I J. assert (T : forall p, In p ((ps ++ new) ++ flat_map paths ls) -> In p (ps ++ paths l ++ flat_map paths ls)) by (intros x X; apply in_app_or in X as [X|X]; [apply Sub in X; rewrite app_assoc; apply in_or_app; now left|apply in_or_app; right; apply in_or_app; now right]).
    apply D; apply T; assumption.
Qed.
