(** Proofs about DecompileModel. *)
From Coq Require Import ZArith List Bool String Lia.
From Verif Require Import Base BaseFacts RecordsModel RecordsProofs DecodeModel SpecDecode DecodeProofs SheetProofs ParserModel AnnounceModel AnnounceProofs ExtractModel SpecExtract ExtractProofs ExtractProofs2 ExtractProofs3 PropsExtract PyValue SpecPython PyTextModel PyReadProofs PyMonoProofs PyStripProofs PyPartsProofs PyTextProofs PyStmtProofs PyGraphicsModel SpecProgram PyGraphicsProofs PropsPyGraphics PropsDecode DecompileModel SpecDecompile.
Import ListNotations.
Open Scope string_scope.
Open Scope list_scope.
Open Scope Z_scope.

(** ** The text *)
Definition raw_ast (p : bytes) : py := YCall (YName (txt "RAWSound")) [([], YStr p)].
Definition sound_ast (p : bytes) : py := YCall (YAttr (YName (txt "g")) (txt "add")) [([], raw_ast p)].
Definition gpaths (g : gen) : list bytes := match g with GPictures l => paths l | _ => [] end.
Definition gstatements (ps : list bytes) (g : gen) : list (option bytes * py) :=
  match g with GPictures l => statements_of ps l | GSound p => [(None, sound_ast p)] | GMissing _ => [] end.
Fixpoint gall (ps : list bytes) (gs : list gen) : list (option bytes * py) :=
  match gs with [] => [] | g :: r => gstatements ps g ++ gall (ps ++ PyGraphicsProofs.added ps (gpaths g)) r end.
Definition gok (g : gen) : Prop :=
  match g with GPictures l => l <> [] /\ fine l /\ Forall path_ok (paths l) | GSound p => plain p = true | GMissing _ => True end.

Lemma sound_text p : plain p = true -> txt "g.add(RAWSound('" ++ p ++ txt "'))" = repr (sound_ast p).
Proof.
  intros P. unfold sound_ast, raw_ast. cbn [repr map fst snd joins]. rewrite (repr_plain p P).
  change (txt "g.add(RAWSound('") with (txt "g.add(RAWSound(" ++ [39]). change (txt "'))") with ([39] ++ [41] ++ [41]). rewrite <- !app_assoc. cbn [app]. rewrite <- ?app_assoc. reflexivity.
Qed.
Lemma sound_good p : plain p = true -> good_text (repr (sound_ast p)) (sound_ast p).
Proof. intros P. apply good_wfp. cbn. rewrite (plain_ascii p P). reflexivity. Qed.
Lemma flat_plain_app a b : flat a = true -> flat b = true -> flat (a ++ b) = true.
Proof. intros A B. rewrite flat_app, A, B. reflexivity. Qed.
Lemma flat_no10 s : flat s = true -> existsb (Z.eqb 10) s = false.
Proof. intros F. destruct (existsb (Z.eqb 10) s) eqn:E; [|reflexivity]. apply existsb_exists in E as (c & I & E). apply Z.eqb_eq in E. subst c. unfold flat in F. rewrite forallb_forall in F. specialize (F 10 I). discriminate F. Qed.
Lemma tidy_line c s d : flat (c :: s ++ [d]) = true -> is_tab c = false -> spaceb c = false -> spaceb d = false -> PyTextModel.strip (dedent (c :: s ++ [d])) = c :: s ++ [d].
Proof.
  intros F T S1 S2. rewrite dedent_id; [|exact T|cbn in F; destruct (c =? 10); [discriminate|reflexivity]|apply okl_line; [exact F|cbn; rewrite T; reflexivity]].
  pose proof (strip_core [] (c :: s) [] d eq_refl eq_refl S1 S2) as X. cbn [app] in X. rewrite app_nil_r in X. exact X.
Qed.
Lemma str_int_last n : exists s d, str_int n = s ++ [d] /\ digitb d = true.
Proof.
  assert (A : forall m, 0 <= m -> exists s d, str_nat m = s ++ [d] /\ digitb d = true).
  { intros m M. assert (D : forallb digitb (str_nat m) = true) by (apply dec_digits_digits; lia). assert (N : str_nat m <> []).
    { unfold str_nat. cbn [dec_digits]. destruct (m <? 10); [discriminate|]. intros E. apply app_eq_nil in E as [_ E]. discriminate. }
    destruct (exists_last N) as (s & d & E). exists s, d. split; [exact E|]. rewrite E, forallb_app in D. apply andb_prop in D as [_ D]. cbn in D. rewrite andb_true_r in D. exact D. }
  unfold str_int. destruct (n <? 0) eqn:E; [|apply A; lia]. destruct (A (- n)) as (s & d & Es & Ed); [lia|]. exists (45 :: s), d. rewrite Es. split; [reflexivity|exact Ed].
Qed.
Lemma skip_comment s t : flat s = true -> skip false true (s ++ 10 :: t) = 10 :: t.
Proof. induction s as [|c s IH]; [reflexivity|]. cbn [flat forallb app skip]. intros H. apply andb_prop in H as [A B]. destruct (c =? 10); [discriminate|]. apply IH, B. Qed.
Lemma reads_comment s t l : flat s = true -> reads_as t l -> reads_as (35 :: s ++ 10 :: t) l.
Proof.
  intros F [m H]. exists (S m). intros n L. destruct n as [|n]; [lia|]. cbn [program]. assert (W : ws false (35 :: s ++ 10 :: t) = 10 :: t) by (unfold ws; cbn [skip]; apply skip_comment, F). rewrite W. cbv iota. apply H. lia.
Qed.
Lemma gens_text : forall gs ps, Forall gok gs -> exists t, gens_program (C ps) gs = Some t /\ reads_as t (gall ps gs).
Proof.
  induction gs as [|g gs IH]; intros ps F; [exists []; split; [reflexivity|apply reads_nil]|]. inversion F as [|? ? G F']; subst. cbn [gens_program gall]. destruct g as [l|p|i]; cbn [gen_py gpaths gstatements gok] in *.
  - destruct G as (N & Fl & Fp). unfold graphics_py. rewrite var_fold. set (new := PyGraphicsProofs.added ps (paths l)). assert (Inc : incl (paths l) (ps ++ new)) by (intros p I; apply added_in, I).
    destruct (all_lines_of (ps ++ new) l Fl Inc) as (sl & A & Ln & _ & _). rewrite A. cbn [bind]. assert (Ns : sl <> []) by (intros ->; destruct l; [congruence|cbn in Ln; lia]). rewrite (add_text_of l sl Ns). cbn [bind app].
    set (t := flat_map var_line new ++ add_of l sl). assert (Fn : Forall path_ok new) by (apply Forall_forall; intros p I; rewrite Forall_forall in Fp; apply Fp, (added_from ps), I).
    assert (O : okl t) by (apply okl_vars; [exact Fn|apply okl_add, (tidy_all_lines (ps ++ new) l sl Fl Inc A)]).
    destruct (add_of_ends l sl) as (x & Ex). assert (H : exists c s, t = (c :: s) ++ [41] /\ letterb c = true).
    { unfold t. rewrite Ex. apply vars_first, Fn. }
    destruct H as (c & s & Et & Lc). assert (Sd : PyTextModel.strip (dedent t) = t).
    { assert (D : dedent t = t) by (rewrite Et in *; apply dedent_id; [unfold is_tab; unfold letterb in Lc; lia|unfold letterb in Lc; lia|exact O]). rewrite D. pose proof (strip_core [] (c :: s) [] 41 eq_refl eq_refl) as X. rewrite app_nil_r in X. rewrite Et. apply X; [unfold spaceb; unfold letterb in Lc; lia|reflexivity]. }
    rewrite Sd. destruct (IH (ps ++ new) F') as (rest & Er & Rr). rewrite Er. cbn [bind]. eexists. split; [reflexivity|].
    unfold statements_of. fold new. rewrite <- app_assoc. unfold t at 1. rewrite <- app_assoc. apply reads_vars; [exact Fn|]. cbn [app]. rewrite Ex. cbn [app].
    assert (W : reads_as ((if existsb (Z.eqb 10) t then [10] else []) ++ rest) (gall (ps ++ new) gs)) by (destruct (existsb (Z.eqb 10) t); [apply reads_blank|]; exact Rr).
    apply reads_line; [reflexivity| |exact W]. rewrite <- Ex. assert (Y : exists y, add_of l sl = txt "g.add(" ++ y) by (unfold add_of; destruct sl as [|? [|? ?]]; eexists; reflexivity). destruct Y as [y Ey].
    apply (expr_reads _ _ y Ey). apply (add_good l (ps ++ new) sl N Fl Inc A).
  - cbn [bind]. set (x := txt "g.add(RAWSound('" ++ p ++ txt "'))"). assert (Fx : flat x = true) by (unfold x; rewrite !flat_app, (plain_flat p G); reflexivity).
    assert (Ex : x = 103 :: (txt ".add(RAWSound('" ++ p ++ txt "')") ++ [41]) by (unfold x; change (txt "g.add(RAWSound('") with (103 :: txt ".add(RAWSound('"); change (txt "'))") with (txt "')" ++ [41]); cbn [app]; rewrite <- !app_assoc; reflexivity).
    assert (Sd : PyTextModel.strip (dedent x) = x) by (rewrite Ex; apply tidy_line; [rewrite <- Ex; exact Fx|reflexivity..]). rewrite Sd, (flat_no10 _ Fx).
    destruct (IH ps F') as (rest & Er & Rr). rewrite Er. cbn [bind app]. eexists. split; [reflexivity|]. cbn [PyGraphicsProofs.added]. rewrite app_nil_r. rewrite Ex. cbn [app]. apply reads_line; [reflexivity| |exact Rr]. rewrite <- Ex.
    apply (expr_reads _ _ (txt "RAWSound('" ++ p ++ txt "'))")); [reflexivity|]. unfold x. rewrite (sound_text p G). apply sound_good, G.
  - cbn [bind]. set (x := txt "# Failed to resolve sprite " ++ str_int i). assert (Fx : flat x = true) by (unfold x; rewrite flat_app, flat_int; reflexivity).
    destruct (str_int_last i) as (s & d & Ei & Di). assert (Ex : x = 35 :: (txt " Failed to resolve sprite " ++ s) ++ [d]) by (unfold x; rewrite Ei; change (txt "# Failed to resolve sprite ") with (35 :: txt " Failed to resolve sprite "); cbn [app]; rewrite <- !app_assoc; reflexivity).
    assert (Sd : PyTextModel.strip (dedent x) = x) by (rewrite Ex; apply tidy_line; [rewrite <- Ex; exact Fx|reflexivity|reflexivity|unfold digitb in Di; unfold spaceb; lia]). rewrite Sd, (flat_no10 _ Fx).
    destruct (IH ps F') as (rest & Er & Rr). rewrite Er. cbn [bind app]. eexists. split; [reflexivity|]. cbn [PyGraphicsProofs.added]. rewrite app_nil_r. rewrite Ex in *. cbn [app]. apply reads_comment; [|exact Rr]. cbn [flat forallb] in Fx. exact Fx.
Qed.

(** ** Running it *)
Fixpoint additions (gs : list gen) : option (list addition) :=
  match gs with
  | [] => Some []
  | GPictures l :: r => do a <- all_shown l; do b <- additions r; Some (Pictures a :: b)
  | GSound p :: r => do b <- additions r; Some (Sound p :: b)
  | GMissing _ :: r => additions r
  end.
Definition kept_path (p : bytes) : Prop := existsb (same (file_var p)) KEPT = false.
Lemma entry_no_sound e : sound_value (entry_ast e) = None.
Proof. unfold entry_ast. destruct (e_colour e) as [r|], (e_mask e) as [m|]; reflexivity. Qed.
Lemma added_add ps v l : known ps v -> incl (paths l) ps -> SpecDecompile.added v (add_ast l) = (do a <- all_shown l; Some (Pictures a)).
Proof.
  intros K I. rewrite <- (run_add ps v l K I). unfold add_ast. destruct l as [|e [|e' l]]; try reflexivity. cbn [map]. unfold SpecDecompile.added. rewrite entry_no_sound. reflexivity.
Qed.
Lemma execute_vars qs : forall ps v r, known ps v -> Forall kept_path qs -> (forall p q, In p (ps ++ qs) -> In q (ps ++ qs) -> file_var p = file_var q -> p = q) ->
  exists w, execute v (map (fun p => (Some (file_var p), import_ast p)) qs ++ r) = execute w r /\ known (ps ++ qs) w.
Proof.
  induction qs as [|p qs IH]; intros ps v r K F D; [exists v; rewrite app_nil_r; split; [reflexivity|exact K]|]. inversion F as [|? ? R F']; subst. cbn [map app execute]. unfold kept_path in R. rewrite R. cbn [negb]. rewrite run_import. cbn [bind].
  destruct (IH (ps ++ [p]) ((file_var p, p) :: v) r) as (w & E & K'); [| exact F' | rewrite <- app_assoc; exact D |].
  - intros q I. cbn [variable]. destruct (same (file_var q) (file_var p)) eqn:S.
    + apply same_iff in S. f_equal. symmetry. apply D; [apply in_or_app; apply in_app_or in I as [I|[<-|[]]]; [now left|right; now left]|apply in_or_app; right; now left|exact S].
    + apply in_app_or in I as [I|[<-|[]]]; [apply K, I|]. rewrite same_refl in S. discriminate.
  - exists w. split; [exact E|]. rewrite <- app_assoc in K'. exact K'.
Qed.
Lemma execute_all : forall gs ps v, known ps v -> Forall (fun g => Forall kept_path (gpaths g)) gs ->
  (forall p q, In p (ps ++ flat_map gpaths gs) -> In q (ps ++ flat_map gpaths gs) -> file_var p = file_var q -> p = q) -> execute v (gall ps gs) = additions gs.
Proof.
  induction gs as [|g gs IH]; intros ps v K F D; [reflexivity|]. inversion F as [|? ? Fl F']; subst. cbn [gall flat_map] in *. destruct g as [l|p|i]; cbn [gpaths gstatements additions] in *.
  - unfold statements_of. rewrite <- app_assoc.
    set (new := PyGraphicsProofs.added ps (paths l)) in *. assert (Sub : forall p, In p (ps ++ new) -> In p (ps ++ paths l)) by (intros p I; apply in_app_or in I as [I|I]; apply in_or_app; [now left|right; exact (added_from _ _ _ I)]).
    destruct (execute_vars new ps v ([(None, add_ast l)] ++ gall (ps ++ new) gs) K) as (w & E & K').
    + apply Forall_forall. intros p I. rewrite Forall_forall in Fl. apply Fl, (added_from ps), I.
    + intros p q I J. apply D; [apply Sub in I; rewrite app_assoc; apply in_or_app; now left|apply Sub in J; rewrite app_assoc; apply in_or_app; now left].
    + rewrite E. cbn [app execute]. rewrite (added_add (ps ++ new) w l K') by (intros p I; apply added_in, I). rewrite (IH (ps ++ new) w K' F'); [destruct (all_shown l); reflexivity|].
      intros p q I J. assert (T : forall p, In p ((ps ++ new) ++ flat_map gpaths gs) -> In p (ps ++ paths l ++ flat_map gpaths gs)) by (intros x X; apply in_app_or in X as [X|X]; [apply Sub in X; rewrite app_assoc; apply in_or_app; now left|apply in_or_app; right; apply in_or_app; now right]).
      apply D; apply T; assumption.
  - cbn [app execute PyGraphicsProofs.added]. rewrite app_nil_r. rewrite (IH ps v K F' D). reflexivity.
  - cbn [app execute PyGraphicsProofs.added]. rewrite app_nil_r. apply (IH ps v K F' D).
Qed.

(** ** Reading *)
Lemma isb_skip n d : isb d -> isb (skipn n d).
Proof. intros F. unfold isb in *. rewrite Forall_forall in *. intros x I. apply F. revert d I F. induction n as [|n IH]; intros d I F; [exact I|]. destruct d; [exact I|]. right. apply IH; [exact I|intros y J; apply F; now right]. Qed.
Lemma rd_B_isb d a r : isb d -> rd_B d = Some (a, r) -> 0 <= a /\ isb r.
Proof. destruct d as [|x d]; cbn [rd_B]; [discriminate|]. intros F H. apply some_inj in H. apply pair_inj in H as [<- <-]. inversion F; subst. split; [lia|assumption]. Qed.
Lemma rd_h_isb d a r : isb d -> rd_h d = Some (a, r) -> isb r.
Proof. unfold rd_h. intros F H. apply bind_some in H as ([v r'] & E & H). apply some_inj in H. apply pair_inj in H as [_ <-]. apply (rd_H_nonneg _ _ _ F E). Qed.
Definition fair (s : real_sprite) : Prop := match s with RGraphics _ pos g => isb pos /\ 0 <= g_width g /\ 0 <= g_height g /\ 0 <= g_zoom g | _ => True end.
Lemma read_fair kind f s f' : isb f -> read_real_sprite kind f = Some (Some (s, f')) -> fair s /\ isb f'.
Proof.
  intros F H. unfold read_real_sprite in H. apply bind_some in H as ([id f1] & E1 & H). destruct (rd_I_nonneg _ _ _ F E1) as [_ F1]. destruct (id =? 0); [discriminate|].
  apply bind_some in H as ([num f2] & E2 & H). destruct (rd_I_nonneg _ _ _ F1 E2) as [_ F2]. apply bind_some in H as ([t f3] & E3 & H). destruct (rd_B_isb _ _ _ F2 E3) as [_ F3].
  destruct (num <? 1); [discriminate|]. cbv zeta in H.
  assert (G : (do (zoom, f) <- rd_B f3; do (height, f) <- rd_H f; do (width, f) <- rd_H f; do (xofs, f) <- rd_h f; do (yofs, f) <- rd_h f;
      do (decomp, f) <- (if negb (Z.land t 8 =? 0) then rd_I f else Some (width * height * g_bpp (mk_gsprite 0 width height t zoom xofs yofs), f));
      Some (Some (RGraphics id f (mk_gsprite decomp width height t zoom xofs yofs), skipn (Z.to_nat (num - 1)) f3))) = Some (Some (s, f')) -> fair s /\ isb f').
  { clear H. intros H. apply bind_some in H as ([zoom f4] & E4 & H). destruct (rd_B_isb _ _ _ F3 E4) as [Z4 F4]. apply bind_some in H as ([hh f5] & E5 & H). destruct (rd_H_nonneg _ _ _ F4 E5) as [H5 F5].
    apply bind_some in H as ([ww f6] & E6 & H). destruct (rd_H_nonneg _ _ _ F5 E6) as [W6 F6]. apply bind_some in H as ([xo f7] & E7 & H). pose proof (rd_h_isb _ _ _ F6 E7) as F7. apply bind_some in H as ([yo f8] & E8 & H). pose proof (rd_h_isb _ _ _ F7 E8) as F8.
    apply bind_some in H as ([dc f9] & E9 & H). assert (F9 : isb f9).
    { destruct (negb (Z.land t 8 =? 0)); [apply (rd_I_nonneg _ _ _ F8 E9)|]. apply some_inj in E9. apply pair_inj in E9 as [_ <-]. exact F8. }
    apply some_inj, some_inj in H. apply pair_inj in H as [<- <-]. split; [cbn; repeat split; assumption|apply isb_skip, F3]. }
  destruct (kind id); [exact (G H)| |exact (G H)|].
  - destruct (slice 2 f3) as [h g]. apply bind_some in H as (l & _ & H). destruct (slice _ g) as [nm g']. apply some_inj, some_inj in H. apply pair_inj in H as [<- <-]. split; [exact I|apply isb_skip, F3].
  - apply some_inj, some_inj in H. apply pair_inj in H as [<- <-]. split; [exact I|apply isb_skip, F3].
Qed.
Lemma reals_fair kind : forall n f l, isb f -> read_reals n kind f = Some l -> Forall fair l.
Proof.
  induction n as [|n IH]; intros f l F H; [discriminate|]. cbn [read_reals] in H. apply bind_some in H as ([[s f']|] & E & H).
  - apply bind_some in H as (l' & E' & H). apply some_inj in H. subst l. destruct (read_fair _ _ _ _ F E) as [Fs F']. constructor; [exact Fs|exact (IH _ _ F' E')].
  - apply some_inj in H. subst l. constructor.
Qed.
Lemma fair_reals l : Forall fair l -> from_file (reals l) /\ zooms (reals l).
Proof.
  intros F. rewrite Forall_forall in F. assert (G : forall s, In (RG s) (reals l) -> isb (f_pos s) /\ 0 <= g_width (f_s s) /\ 0 <= g_height (f_s s) /\ 0 <= g_zoom (f_s s)).
  { intros s I. unfold reals in I. apply in_map_iff in I as (r & E & I). specialize (F r I). destruct r as [i p g|i p n nm|]; try discriminate E. injection E as <-. exact F. }
  split; intros s I; destruct (G s I) as (A & B & D & E); [repeat split; assumption|exact E].
Qed.
Lemma graphics_reals l s : In (RG s) (reals l) <-> In (RGraphics (f_id s) (f_pos s) (f_s s)) l.
Proof.
  unfold reals. rewrite in_map_iff. split.
  - intros (r & E & I). destruct r as [i p g|i p n nm|]; try discriminate E. injection E as <-. exact I.
  - intros I. exists (RGraphics (f_id s) (f_pos s) (f_s s)). split; [destruct s; reflexivity|exact I].
Qed.

(** ** Sounds *)
Definition s_pos (s : snd_sprite) : bytes := snd (fst (fst s)).
Definition s_size (s : snd_sprite) : Z := snd (fst s).
Definition s_name (s : snd_sprite) : bytes := snd s.
Lemma sounds_filter i l : map (fun s => (s_pos s, s_size s)) (sounds (filter (fun r => i =? sprite_id r) l)) = sounds_of i l.
Proof.
  induction l as [|r l IH]; [reflexivity|]. cbn [filter sounds_of flat_map]. destruct r as [j p g|j p n nm|]; cbn [sprite_id].
  - destruct (i =? j); exact IH.
  - rewrite (Z.eqb_sym j i). destruct (i =? j); [cbn [sounds flat_map app map]; unfold s_pos, s_size; cbn [fst snd]; f_equal|]; exact IH.
  - destruct (i =? 0); exact IH.
Qed.
Lemma sounds_ids i l : map (fun s => (s_pos s, s_size s)) (filter (fun s => i =? s_id s) (sounds_in_order l)) = sounds_of i l.
Proof.
  unfold sounds_in_order. set (d := fold_left _ l []). rewrite (filter_flat Z.eqb zeqb_ok sounds s_id).
  - pose proof (got_fold Z.eqb zeqb_ok sprite_id l [] i) as G. fold d in G. unfold got in G. cbn [dict_get app] in G. rewrite <- sounds_filter, <- G. destruct (dict_get Z.eqb d i); reflexivity.
  - apply (fold_nodup Z.eqb zeqb_ok). constructor.
  - intros k m I. apply (fold_member Z.eqb zeqb_ok) in I. subst m. apply Forall_forall. intros s I. unfold sounds in I. apply in_flat_map in I as (r & Ir & I). apply filter_In in Ir as [_ E]. destruct r as [j p g|j p n nm|]; try destruct I as [<-|[]]; try destruct I. cbn [sprite_id] in E. apply Z.eqb_eq in E. symmetry. exact E.
Qed.
Lemma sounds_in_all s l : In s (sounds_in_order l) -> exists i p n nm, s = (i, p, n, nm) /\ In (RSound i p n nm) l.
Proof.
  intros I. destruct s as [[[i p] n] nm]. exists i, p, n, nm. split; [reflexivity|]. unfold sounds_in_order in I. apply in_flat_map in I as ([k m] & Ik & I). apply (fold_member Z.eqb zeqb_ok) in Ik. cbn [snd] in I. subst m.
  unfold sounds in I. apply in_flat_map in I as (r & Ir & I). apply filter_In in Ir as [Ir _]. destruct r as [j q g|j q n' nm'|]; try destruct I as [E|[]]; try destruct I. injection E as -> -> -> ->. exact Ir.
Qed.
Definition assign (o : list (Z * bytes)) (sf : snd_sprite * (bytes * bytes)) : list (Z * bytes) := dict_set Z.eqb o (s_id (fst sf)) (fst (snd sf)).
Lemma save_inv ascii : forall l index out files out', save_sounds ascii index l out = Some (files, out') ->
  exists us, sound_names ascii index (map s_name l) (txt "wav") = Some us /\ map fst files = map (fun u => RESOURCES ++ u) us /\
    Forall2 (fun s f => file_read (s_size s) (s_pos s) = Some (snd f)) l files /\ out' = fold_left assign (combine l files) out.
Proof.
  induction l as [|[[[i p] n] nm] l IH]; intros index out files out' H; cbn [save_sounds] in H.
  - apply some_inj in H. apply pair_inj in H as [<- <-]. exists []. repeat split; constructor.
  - apply bind_some in H as ([u ix] & Eu & H). apply bind_some in H as (data & Ed & H). apply bind_some in H as ([fs o] & E & H). apply some_inj in H. apply pair_inj in H as [<- <-].
    destruct (IH _ _ _ _ E) as (us & A & B & D & G). exists (u :: us). cbn [map sound_names]. change (s_name (i, p, n, nm)) with nm. rewrite Eu. cbn [bind]. rewrite A. cbn [bind]. split; [reflexivity|]. cbn [fst]. rewrite B. split; [reflexivity|].
    split; [constructor; [exact Ed|exact D]|]. cbn [combine fold_left]. exact G.
Qed.
Lemma save_total ascii : forall l index out us, sound_names ascii index (map s_name l) (txt "wav") = Some us -> Forall (fun s => 0 <= s_size s) l ->
  exists files out', save_sounds ascii index l out = Some (files, out').
Proof.
  induction l as [|[[[i p] n] nm] l IH]; intros index out us E F; [do 2 eexists; reflexivity|]. cbn [map sound_names] in E. change (s_name (i, p, n, nm)) with nm in E. apply bind_some in E as ([u ix] & Eu & E). apply bind_some in E as (vs & Ev & _).
  inversion F as [|? ? F0 F']; subst. destruct (IH _ (dict_set Z.eqb out i (RESOURCES ++ u)) _ Ev F') as (fs & o & S). cbn [save_sounds]. rewrite Eu. cbn [bind]. unfold file_read. unfold s_size in F0. cbn [fst snd] in F0.
  replace (n =? -1) with false by lia. replace (n <? 0) with false by lia. cbn [bind]. cbv zeta. rewrite S. cbn [bind]. do 2 eexists. reflexivity.
Qed.
Lemma assign_get i : forall l out, dict_get Z.eqb (fold_left assign l out) i =
  match rev (filter (fun sf => i =? s_id (fst sf)) l) with sf :: _ => Some (fst (snd sf)) | [] => dict_get Z.eqb out i end.
Proof.
  induction l as [|sf l IH]; intros out; [reflexivity|]. cbn [fold_left filter]. rewrite IH. unfold assign at 1. rewrite (get_set Z.eqb zeqb_ok).
  destruct (i =? s_id (fst sf)) eqn:E; [|destruct (rev (filter (fun sf0 => i =? s_id (fst sf0)) l)); reflexivity]. cbn [rev]. destruct (rev (filter (fun sf0 => i =? s_id (fst sf0)) l)); reflexivity.
Qed.
Lemma contents_in files : NoDup (map fst files) -> forall p d, In (p, d) files -> contents p files = Some d.
Proof.
  induction files as [|[q e] files IH]; intros N p d I; [destruct I|]. cbn [map fst] in N. inversion N as [|? ? N1 N2]; subst. cbn [contents]. destruct I as [E|I].
  - apply pair_inj in E as [-> ->]. assert (X : contents p files = None).
    { clear - N1. induction files as [|[q e] files IH]; [reflexivity|]. cbn [contents]. rewrite IH by (intros I; apply N1; now right). destruct (list_eq_dec Z.eq_dec q p) as [->|]; [|reflexivity]. exfalso. apply N1. now left. }
    rewrite X. destruct (list_eq_dec Z.eq_dec p p); [reflexivity|congruence].
  - rewrite (IH N2 p d I). reflexivity.
Qed.
Lemma wav_plain ascii index names us : sound_names ascii index names (txt "wav") = Some us -> Forall (fun u => plain (RESOURCES ++ u) = true) us.
Proof.
  intros E. apply sound_names_form in E. induction E as [|n u names us (i & Hi & ->) F IH]; constructor; [|exact IH].
  destruct (candidate_chars (ascii (cut_extension n (txt "wav"))) (txt "wav") i ltac:(lia)) as (base & Eb & Fb). rewrite Eb. unfold plain. rewrite !forallb_app. change (forallb _ RESOURCES) with true. cbn [andb forallb].
  assert (X : forallb (fun c => (32 <=? c) && (c <? 127) && negb (c =? 39) && negb (c =? 92)) base = true).
  { apply forallb_forall. intros c I. rewrite Forall_forall in Fb. specialize (Fb c I). unfold name_char in Fb. lia. }
  rewrite X. reflexivity.
Qed.
Lemma nodup_map_inj {A B} (f : A -> B) l : (forall a b, f a = f b -> a = b) -> NoDup l -> NoDup (map f l).
Proof. intros J N. induction N as [|a l N1 N2 IH]; [constructor|]. cbn. constructor; [|exact IH]. intros I. apply in_map_iff in I as (b & E & I). apply J in E. subst. exact (N1 I). Qed.
(** What saving the sounds leaves. *)
Lemma save_result ascii l wavs out : save_sounds ascii [] (sounds_in_order l) [] = Some (wavs, out) -> (forall i p n nm, In (RSound i p n nm) l -> 0 <= n) ->
  NoDup (map fst wavs) /\ forall i, match dict_get Z.eqb out i with
    | Some path => plain path = true /\ exists before p n, sounds_of i l = before ++ [(p, n)] /\ contents path wavs = Some (firstn (Z.to_nat n) p)
    | None => sounds_of i l = []
    end.
Proof.
  intros H P. destruct (save_inv _ _ _ _ _ _ H) as (us & A & B & D & ->). destruct (sound_names_nodup _ _ _ _ _ A) as (N & _ & _). pose proof (wav_plain _ _ _ _ A) as W.
  assert (Nw : NoDup (map fst wavs)) by (rewrite B; apply nodup_map_inj; [intros a b; apply app_inv_head|exact N]). split; [exact Nw|]. intros i. rewrite assign_get. cbn [dict_get].
  set (fl := filter _ _). assert (E : map fst fl = filter (fun s => i =? s_id s) (sounds_in_order l)).
  { unfold fl. rewrite (filter_map' fst (fun s => i =? s_id s)). f_equal. clear - D. induction D as [|a b x y _ _ IH]; [reflexivity|]. cbn. f_equal. exact IH. }
  pose proof (sounds_ids i l) as Q. rewrite <- E in Q. destruct (rev fl) as [|[s [path d]] r] eqn:R.
  - apply (f_equal (@rev _)) in R. rewrite rev_involutive in R. rewrite R in Q. symmetry. exact Q.
  - apply (f_equal (@rev _)) in R. rewrite rev_involutive in R. cbn [rev] in R. assert (I : In (s, (path, d)) (combine (sounds_in_order l) wavs)).
    { assert (I : In (s, (path, d)) fl) by (rewrite R; apply in_or_app; right; now left). unfold fl in I. apply filter_In in I. tauto. }
    cbn [snd fst]. pose proof (in_combine_r _ _ _ _ I) as Iw. pose proof (in_combine_l _ _ _ _ I) as Is. split.
    + apply (in_map fst) in Iw. rewrite B in Iw. cbn [fst] in Iw. apply in_map_iff in Iw as (u & <- & Iu). rewrite Forall_forall in W. exact (W u Iu).
    + exists (map (fun s => (s_pos s, s_size s)) (map fst (rev r))), (s_pos s), (s_size s). split; [rewrite <- Q, R, !map_app; reflexivity|]. rewrite (contents_in _ Nw _ _ Iw).
      assert (Rd : file_read (s_size s) (s_pos s) = Some d).
      { clear - D I. induction D as [|a b x y E _ IH]; [destruct I|]. cbn [combine] in I. destruct I as [X|I]; [|exact (IH I)]. apply pair_inj in X as [-> ->]. exact E. }
      destruct (sounds_in_all _ _ Is) as (j & p & n & nm & -> & Il). specialize (P _ _ _ _ Il). unfold s_size, s_pos in *. cbn [fst snd] in *. unfold file_read in Rd. replace (n =? -1) with false in Rd by lia. replace (n <? 0) with false in Rd by lia. symmetry. exact Rd.
Qed.
