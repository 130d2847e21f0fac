(** C76: the statements of the decompiled program about graphics, as text.
    The specification is SpecProgram (programs, and what they do) with
    SpecExtract; contexts are those reading a file leaves (C74), the table is
    that of the image files (C75). *)
From Coq Require Import ZArith List Bool String Lia.
From Verif Require Import Base BaseFacts RecordsModel RecordsProofs DecodeModel SheetProofs AnnounceModel AnnounceProofs SpecAnnounce ExtractModel SpecExtract PyValue SpecPython PyTextModel PyReadProofs PyMonoProofs PropsAnnounce ExtractProofs ExtractProofs2 ExtractProofs3 PropsExtract PyGraphicsModel SpecProgram PyGraphicsProofs.
Import ListNotations.
Open Scope string_scope.
Open Scope list_scope.
Open Scope Z_scope.

(** ** Programs are read in one way *)
Lemma statement_mono n s x : statement n s = Some x -> statement (S n) s = Some x.
Proof.
  unfold statement. assert (A : forall s, (do (e, r) <- expr n false s; Some ((@None bytes, e), r)) = Some x -> (do (e, r) <- expr (S n) false s; Some ((@None bytes, e), r)) = Some x).
  { intros t H. apply bind_some in H as ([e r] & E & H). rewrite (expr_mono false t n (S n) (Nat.le_succ_diag_r n) _ E). exact H. }
  destruct (name s) as [[v r]|]; [|apply A]. pose proof (A s) as As. destruct (ws false r) as [|c r']; [exact As|]. destruct (Z.eqb_spec c 61) as [->|N].
  - assert (B : (do (e, r0) <- expr n false r'; Some ((Some v, e), r0)) = Some x -> (do (e, r0) <- expr (S n) false r'; Some ((Some v, e), r0)) = Some x).
    { intros H. apply bind_some in H as ([e r0] & E & H). rewrite (expr_mono false r' n (S n) (Nat.le_succ_diag_r n) _ E). exact H. }
    destruct r' as [|d r']; [exact B|]. destruct d as [|p|p]; try exact B. repeat (destruct p as [p|p|]; try exact B). discriminate.
  - destruct c as [|p|p]; try exact As. repeat (destruct p as [p|p|]; try exact As). congruence.
Qed.
Lemma program_mono : forall n s l, program n s = Some l -> program (S n) s = Some l.
Proof.
  induction n as [|n IH]; intros s l H; [discriminate|]. remember (S n) as m. cbn [program]. subst m. cbn [program] in H. destruct (ws false s) as [|c r]; [exact H|].
  assert (M : forall r0 (st : option bytes * py), match ws false r0 with [] => Some [st] | 10 :: r => do l <- program n r; Some (st :: l) | _ => None end = Some l ->
                        match ws false r0 with [] => Some [st] | 10 :: r => do l <- program (S n) r; Some (st :: l) | _ => None end = Some l).
  { intros r0 st. destruct (ws false r0) as [|d r1]; [trivial|]. destruct d as [|p|p]; try discriminate. repeat (destruct p as [p|p|]; try discriminate).
    intros E. apply bind_some in E as (k & E & K). rewrite (IH _ _ E). exact K. }
  assert (G : (match s with 32 :: _ => None | _ => do (st, r) <- statement n s; match ws false r with [] => Some [st] | 10 :: r => do l <- program n r; Some (st :: l) | _ => None end end) = Some l ->
              (match s with 32 :: _ => None | _ => do (st, r) <- statement (S n) s; match ws false r with [] => Some [st] | 10 :: r => do l <- program (S n) r; Some (st :: l) | _ => None end end) = Some l).
  { assert (B : (do (st, r) <- statement n s; match ws false r with [] => Some [st] | 10 :: r => do l <- program n r; Some (st :: l) | _ => None end) = Some l ->
                (do (st, r) <- statement (S n) s; match ws false r with [] => Some [st] | 10 :: r => do l <- program (S n) r; Some (st :: l) | _ => None end) = Some l).
    { intros E. apply bind_some in E as ([st r0] & E & K). rewrite (statement_mono _ _ _ E). cbn [bind]. apply M, K. }
    destruct s as [|d s]; [exact B|]. destruct d as [|p|p]; try exact B. repeat (destruct p as [p|p|]; try exact B). discriminate. }
  destruct c as [|p|p]; try exact (G H). repeat (destruct p as [p|p|]; try exact (G H)). apply IH, H.
Qed.
Lemma program_up n m s l : (n <= m)%nat -> program n s = Some l -> program m s = Some l.
Proof. intros L. induction L as [|m L IH]; [trivial|]. intros H. apply program_mono, IH, H. Qed.
Theorem C76_read_once : forall s l l', Program s l -> Program s l' -> l = l'.
Proof.
  intros s l l' [n A] [m B]. apply (program_up n (Nat.max n m)) in A; [|lia]. apply (program_up m (Nat.max n m)) in B; [|lia]. congruence.
Qed.

(** ** Names of the files *)
Lemma last_resources x : last_part (RESOURCES ++ x) = last_part x. Proof. reflexivity. Qed.
Lemma last_none x : existsb (Z.eqb 47) x = false -> last_part x = x.
Proof. destruct x as [|c x]; [reflexivity|]. intros H. cbn [last_part]. rewrite H. reflexivity. Qed.
Lemma simple_chars g : simple g -> forall c, In c g -> SpecPython.identb c = true.
Proof. intros [A _] c I. rewrite forallb_forall in A. exact (A c I). Qed.
Definition suffix_var (t : bytes) : Prop := exists v, map (fun c => if c =? 46 then 95 else c) t = v ++ txt "_png" /\ existsb (Z.eqb 47) t = false /\ plain t = true /\ forallb SpecPython.identb v = true.
Lemma var_of_file g t : simple g -> suffix_var t -> file_var (RESOURCES ++ g ++ t) = g ++ map (fun c => if c =? 46 then 95 else c) t.
Proof.
  intros S (v & _ & N & _ & _). unfold file_var. rewrite last_resources, last_none.
  - rewrite map_app. f_equal. rewrite <- (map_id g) at 2. apply map_ext_in. intros c I. pose proof (simple_chars g S c I) as X. unfold SpecPython.identb, letterb, digitb in X. replace (c =? 46) with false by lia. reflexivity.
  - rewrite existsb_app, N, orb_false_r. destruct (existsb (Z.eqb 47) g) eqn:E; [|reflexivity]. apply existsb_exists in E as (c & I & E). apply Z.eqb_eq in E. subst c. discriminate (simple_chars g S 47 I).
Qed.
Lemma file_ok g t : simple g -> g <> [] -> suffix_var t -> path_ok (RESOURCES ++ g ++ t).
Proof.
  intros S N T. unfold path_ok, goodv. rewrite (var_of_file g t S T). destruct T as (v & E & _ & P & V). rewrite E. set (x := g ++ v ++ txt "_png"). destruct S as [A B]. split; [|split].
  - unfold plain. rewrite !forallb_app. fold (plain RESOURCES) (plain g) (plain t). rewrite P. change (plain RESOURCES) with true. rewrite andb_true_r. cbn [andb]. unfold plain. rewrite forallb_forall in *. intros c I. specialize (A c I). unfold SpecPython.identb, letterb, digitb in A. lia.
  - assert (K : keyword x = false).
    { unfold keyword. destruct (existsb (same x) KEYWORDS) eqn:Q; [|reflexivity]. exfalso. apply existsb_exists in Q as (k & I & Q). apply same_iff in Q. assert (F : Forall (fun k => firstn 4 (rev k) <> txt "gnp_") KEYWORDS) by (repeat (apply Forall_cons; [discriminate|]); apply Forall_nil).
      rewrite Forall_forall in F. apply (F k I). rewrite <- Q. unfold x. rewrite !rev_app_distr. reflexivity. }
    assert (X : forallb SpecPython.identb x = true) by (unfold x; rewrite !forallb_app, A, V; reflexivity). unfold good_name. rewrite K, X. unfold x. destruct g as [|c g]; [congruence|]. cbn [app]. rewrite B. reflexivity.
  - destruct (existsb (same x) RESERVED) eqn:Q; [|reflexivity]. exfalso. apply existsb_exists in Q as (k & I & Q). apply same_iff in Q. assert (F : Forall (fun k => firstn 4 (rev k) <> txt "gnp_") RESERVED) by (repeat (apply Forall_cons; [discriminate|]); apply Forall_nil).
    rewrite Forall_forall in F. apply (F k I). rewrite <- Q. unfold x. rewrite !rev_app_distr. reflexivity.
Qed.
Lemma mask_suffix : suffix_var (txt ".png"). Proof. exists []. repeat split; reflexivity. Qed.
Lemma rgba_suffix : suffix_var (txt "_32bpp.png"). Proof. exists (txt "_32bpp"). repeat split; reflexivity. Qed.

(** ** The files of the statements *)
Definition files_of (c : ctx) (e : entry) : Prop := let g := group_of c (f_id (e_sprite e)) in
  (forall p, e_mask e = Some p -> p = RESOURCES ++ g ++ txt ".png") /\ (forall p, e_colour e = Some p -> p = RESOURCES ++ g ++ txt "_32bpp.png") /\
  (Z.testbit (g_type (f_s (e_sprite e))) 2 = true -> e_mask e <> None) /\ (Z.testbit (g_type (f_s (e_sprite e))) 0 = true -> e_colour e <> None).
Lemma table_files h1 h2 container c l files table : reached c -> from_file l -> extract h1 h2 container c l = Some (files, table) ->
  forall i e, In e (statements table i) -> files_of c e /\ In (RG (e_sprite e)) l.
Proof.
  intros R F H i e I. pose proof (C75_resolved _ _ _ _ _ _ _ R F H i) as Rs. assert (J : In (e_sprite e) (graphics_of i l)).
  { apply (in_map e_sprite) in I. rewrite Rs in I. apply filter_In in I. tauto. }
  assert (K : In (RG (e_sprite e)) l). { unfold graphics_of in J. apply in_flat_map in J as (r & Ir & J). destruct r as [s|]; [|destruct J]. destruct (f_id s =? i); [|destruct J]. destruct J as [<-|[]]. exact Ir. }
  split; [|exact K]. apply extract_statements in H as (es & E & T). destruct (groups_ok c l R F) as (N & G & W). destruct (groups_entries _ _ _ _ _ _ _ E N G W) as (_ & _ & A).
  rewrite T in I. apply filter_In in I as [I _]. destruct (A e I) as (g & m & Ig & Im & Em & Ec). pose proof (by_group_member _ _ _ _ Ig) as Mm.
  assert (Eg : g = group_of c (f_id (e_sprite e))) by (rewrite Mm in Im; apply filter_In in Im as [_ Q]; apply beq_ok in Q; exact Q).
  unfold files_of. rewrite <- Eg, Em, Ec. split; [|split; [|split]].
  - intros p X. match type of X with (if ?b then _ else _) = _ => destruct b end; [|discriminate X]. apply some_inj in X. symmetry. exact X.
  - intros p X. match type of X with (if ?b then _ else _) = _ => destruct b end; [|discriminate X]. apply some_inj in X. symmetry. exact X.
  - intros B. assert (X : existsb (fun s => Z.testbit (g_type (f_s s)) 2) m = true) by (apply existsb_exists; exists (e_sprite e); split; [exact Im|exact B]). rewrite X. discriminate.
  - intros B. assert (X : existsb (fun s => Z.testbit (g_type (f_s s)) 0 || Z.testbit (g_type (f_s s)) 1) m = true) by (apply existsb_exists; exists (e_sprite e); split; [exact Im|rewrite B; reflexivity]). rewrite X. discriminate.
Qed.
Lemma path_cases c e p : files_of c e -> In p (paths_of e) -> exists t, (t = txt ".png" \/ t = txt "_32bpp.png") /\ p = RESOURCES ++ group_of c (f_id (e_sprite e)) ++ t.
Proof.
  intros (A & B & _) I. unfold paths_of in I. apply in_app_or in I as [I|I].
  - destruct (e_mask e) as [q|]; [|destruct I]. destruct I as [<-|[]]. exists (txt ".png"). split; [now left|]. apply A. reflexivity.
  - destruct (e_colour e) as [q|]; [|destruct I]. destruct I as [<-|[]]. exists (txt "_32bpp.png"). split; [now right|]. apply B. reflexivity.
Qed.
Lemma suffix_ok t : t = txt ".png" \/ t = txt "_32bpp.png" -> suffix_var t.
Proof. intros [-> | ->]; [exact mask_suffix|exact rgba_suffix]. Qed.
Lemma program_runs h1 h2 container c l files table : reached c -> from_file l -> zooms l -> extract h1 h2 container c l = Some (files, table) ->
  forall ids, Forall (fun i => statements table i <> []) ids ->
  exists text stmts, graphics_program [] (map (statements table) ids) = Some text /\ Program text stmts /\ run [] stmts = all_pictures (map (statements table) ids).
Proof.
  intros R F Zm H ids N. set (ls := map (statements table) ids). pose proof (table_files _ _ _ _ _ _ _ R F H) as T.
  assert (Q : forall p, In p (flat_map paths ls) -> exists i t, (t = txt ".png" \/ t = txt "_32bpp.png") /\ p = RESOURCES ++ group_of c i ++ t).
  { intros p I. apply in_flat_map in I as (es & Ies & I). unfold ls in Ies. apply in_map_iff in Ies as (i & <- & _). unfold paths in I. apply in_flat_map in I as (e & Ie & I). destruct (T i e Ie) as [Fe _]. destruct (path_cases c e p Fe I) as (t & Ct & Ep). exists (f_id (e_sprite e)), t. split; assumption. }
  assert (P : Forall (fun l => Forall path_ok (paths l)) ls).
  { apply Forall_forall. intros es Ies. apply Forall_forall. intros p I. destruct (Q p) as (i & t & Ct & ->); [apply in_flat_map; exists es; split; assumption|]. destruct (reached_simple c i R) as [S1 S2]. apply file_ok; [exact S1|exact S2|apply suffix_ok, Ct]. }
  assert (W : Forall (fun l => l <> [] /\ fine l /\ Forall path_ok (paths l)) ls).
  { apply Forall_forall. intros es Ies. pose proof Ies as J. rewrite Forall_forall in P. split; [|split; [|apply P, Ies]].
    - unfold ls in J. apply in_map_iff in J as (i & <- & I). rewrite Forall_forall in N. exact (N i I).
    - apply Forall_forall. intros e Ie. unfold ls in J. apply in_map_iff in J as (i & <- & I). destruct (T i e Ie) as [Fe Il]. split; [apply Zm, Il|]. apply Forall_forall. intros p Ip. specialize (P _ Ies). rewrite Forall_forall in P. apply P. unfold paths. apply in_flat_map. exists e. split; assumption. }
  destruct (program_text ls [] W) as (text & Et & (m & Rd)). exists text, (all_statements [] ls). split; [exact Et|]. split; [exists m; apply Rd, le_n|].
  apply run_all; [intros p []|exact P|]. cbn [app]. intros p q Ip Iq E. destruct (Q p Ip) as (i & t & Ct & ->), (Q q Iq) as (j & u & Cu & ->).
  destruct (reached_simple c i R) as [S1 _], (reached_simple c j R) as [S2 _]. rewrite (var_of_file _ t S1 (suffix_ok t Ct)), (var_of_file _ u S2 (suffix_ok u Cu)) in E.
  destruct (C74_files _ _ (reached_group c i R) (reached_group c j R)) as (_ & _ & Z1 & _). destruct (C74_files _ _ (reached_group c j R) (reached_group c i R)) as (_ & _ & Z2 & _). unfold mask_file, rgba_file in *.
  destruct Ct as [-> | ->], Cu as [-> | ->].
  - apply app_inv_tail in E. rewrite E. reflexivity.
  - exfalso. apply Z1. change (txt "_32bpp.png") with (txt "_32bpp" ++ txt ".png"). rewrite app_assoc. f_equal. apply (app_inv_tail (txt "_png")). rewrite <- app_assoc. exact E.
  - exfalso. apply Z2. change (txt "_32bpp.png") with (txt "_32bpp" ++ txt ".png"). rewrite app_assoc. f_equal. apply (app_inv_tail (txt "_png")). rewrite <- app_assoc. symmetry. exact E.
  - apply app_inv_tail in E. rewrite E. reflexivity.
Qed.
Lemma shown_some c e : files_of c e -> Z.testbit (g_type (f_s (e_sprite e))) 0 || Z.testbit (g_type (f_s (e_sprite e))) 2 = true -> exists p, shown e = Some p.
Proof.
  intros (_ & _ & A & B) H. unfold shown. destruct (e_colour e) as [r|], (e_mask e) as [m|]; try (eexists; reflexivity). exfalso. apply orb_prop in H as [H|H]; [exact (B H eq_refl)|exact (A H eq_refl)].
Qed.
Lemma all_shown_map es : (forall e, In e es -> exists p, shown e = Some p) -> exists ps, all_shown es = Some ps /\ map shown es = map Some ps.
Proof.
  induction es as [|e es IH]; intros H; [exists []; split; reflexivity|]. destruct (H e (or_introl eq_refl)) as [p P]. destruct IH as (ps & A & B); [intros; apply H; now right|]. exists (p :: ps). cbn [all_shown map]. rewrite P, A, B. split; reflexivity.
Qed.

(** The statements printed for the sprites of the file are a program, and
    running it adds, for each sprite number, the pictures of its sprites: the
    pieces of the image files, sizes, offsets, zoom levels. *)
Theorem C76_runs : forall h1 h2 container c l files table, reached c -> from_file l -> zooms l -> extract h1 h2 container c l = Some (files, table) ->
  (forall s, In (RG s) l -> Z.testbit (g_type (f_s s)) 0 || Z.testbit (g_type (f_s s)) 2 = true \/ just_alpha (g_type (f_s s)) = true) ->
  forall ids, Forall (fun i => statements table i <> []) ids ->
  exists text stmts pics, graphics_program [] (map (statements table) ids) = Some text /\ Program text stmts /\ run [] stmts = Some pics /\
    Forall2 (fun i ps => map Some ps = map shown (statements table i)) ids pics.
Proof.
  intros h1 h2 container c l files table R F Zm H Ch ids N. destruct (program_runs _ _ _ _ _ _ _ R F Zm H ids N) as (text & stmts & E & P & Rn). exists text, stmts.
  assert (S : forall i e, In e (statements table i) -> exists p, shown e = Some p).
  { intros i e I. destruct (table_files _ _ _ _ _ _ _ R F H i e I) as [Fe Il]. apply (shown_some c e Fe). destruct (Ch _ Il) as [X|X]; [exact X|]. exfalso. pose proof (C75_resolved _ _ _ _ _ _ _ R F H i) as Rs. apply (in_map e_sprite) in I. rewrite Rs in I. apply filter_In in I as [_ I]. rewrite X in I. discriminate. }
  assert (X : exists pics, all_pictures (map (statements table) ids) = Some pics /\ Forall2 (fun i ps => map Some ps = map shown (statements table i)) ids pics).
  { clear - S. induction ids as [|i ids IH]; [exists []; split; constructor|]. destruct IH as (pics & A & B). destruct (all_shown_map (statements table i) (S i)) as (ps & C1 & C2). exists (ps :: pics). cbn [map all_pictures]. rewrite C1, A. cbn [bind]. split; [reflexivity|]. constructor; [symmetry; exact C2|exact B]. }
  destruct X as (pics & A & B). exists pics. rewrite Rn. repeat split; assumption.
Qed.
(** The sprites of one number - its zoom levels and colour depths - become as
    many sprites, so that the ones after them get other numbers. *)
Theorem C76_alternatives_refuted : forall h1 h2 container c l files table, reached c -> from_file l -> zooms l -> extract h1 h2 container c l = Some (files, table) ->
  (forall s, In (RG s) l -> Z.testbit (g_type (f_s s)) 0 || Z.testbit (g_type (f_s s)) 2 = true \/ just_alpha (g_type (f_s s)) = true) ->
  forall i n, List.length (filter (fun s => negb (just_alpha (g_type (f_s s)))) (graphics_of i l)) = n -> (2 <= n)%nat ->
  exists text stmts ps, graphics_program [] [statements table i] = Some text /\ Program text stmts /\ run [] stmts = Some [ps] /\ List.length ps = n.
Proof.
  intros h1 h2 container c l files table R F Zm H Ch i n En L. rewrite <- (C75_resolved _ _ _ _ _ _ _ R F H i), map_length in En.
  destruct (C76_runs _ _ _ _ _ _ _ R F Zm H Ch [i]) as (text & stmts & pics & E & P & Rn & Fa).
  - constructor; [|constructor]. intros X. rewrite X in En. cbn in En. lia.
  - inversion Fa as [|? ps ? ? Hp Fn]; subst. inversion Fn; subst. exists text, stmts, ps. repeat split; try assumption. apply (f_equal (@List.length _)) in Hp. rewrite !map_length in Hp. exact Hp.
Qed.
(** A sprite without channels whose group has none either has no file: the
    program uses a name it does not define, and stops. *)
Theorem C76_empty_refuted : forall h1 h2 container c l files table, reached c -> from_file l -> zooms l -> extract h1 h2 container c l = Some (files, table) ->
  forall ids i e, Forall (fun i => statements table i <> []) ids -> In i ids -> In e (statements table i) -> e_mask e = None -> e_colour e = None ->
  (exists text stmts, graphics_program [] (map (statements table) ids) = Some text /\ Program text stmts /\ run [] stmts = None) /\ ~ In (txt "EMPTY_SPRITE") PROGRAM_NAMES.
Proof.
  intros h1 h2 container c l files table R F Zm H ids i e N Ii Ie Em Ec. split.
  - destruct (program_runs _ _ _ _ _ _ _ R F Zm H ids N) as (text & stmts & E & P & Rn). exists text, stmts. split; [exact E|]. split; [exact P|]. rewrite Rn. clear - Ii Ie Em Ec.
    assert (S : all_shown (statements table i) = None).
    { induction (statements table i) as [|x es IH]; [destruct Ie|]. cbn [all_shown]. destruct Ie as [-> | Ie].
      - unfold shown. rewrite Em, Ec. reflexivity.
      - rewrite (IH Ie). destruct (shown x); reflexivity. }
    induction ids as [|j ids IH]; [destruct Ii|]. cbn [map all_pictures]. destruct Ii as [-> | Ii]; [rewrite S; reflexivity|]. rewrite (IH Ii). destruct (all_shown (statements table j)); reflexivity.
  - assert (X : existsb (same (txt "EMPTY_SPRITE")) PROGRAM_NAMES = false) by reflexivity. intros I. assert (Y : existsb (same (txt "EMPTY_SPRITE")) PROGRAM_NAMES = true) by (apply existsb_exists; exists (txt "EMPTY_SPRITE"); split; [exact I|apply same_refl]). congruence.
Qed.

(** The sprites of C75's example: two of palette indices with one number,
    one of colours, all in one group, so the files of both kinds are used. *)
Example C76_example : match extract (fun d => len d) (fun a b c => 100 * a + 10 * b + c) 2 new_ctx ex_reals with
  | Some (_, table) => match graphics_program [] [statements table 2; statements table 1] with None => False | Some text =>
      firstn 107 text = txt "misc_png = ImageFile('resources/misc.png')" ++ [10] ++ txt "misc_32bpp_png = ImageFile('resources/misc_32bpp.png')" ++ [10] ++ txt "g.add(" ++ [10] ++ txt "  " /\
      (do l <- program 2000 text; run [] l) = Some
        [[mk_picture (txt "resources/misc_32bpp.png", 29, 5, 1, 1) 0 0 0 (Some (txt "resources/misc.png", 29, 5, 1, 1))];
         [mk_picture (txt "resources/misc_32bpp.png", 5, 5, 2, 1) 0 0 0 (Some (txt "resources/misc.png", 5, 5, 2, 1));
          mk_picture (txt "resources/misc_32bpp.png", 17, 5, 2, 1) (-3) 0 0 (Some (txt "resources/misc.png", 17, 5, 2, 1))]]
      end
  | None => False
  end.
Proof. vm_compute. split; reflexivity. Qed.
(** It meets the hypotheses of C76_runs; a sprite without channels those of
    C76_empty_refuted. *)
Example C76_hypotheses : zooms ex_reals /\ (forall s, In (RG s) ex_reals -> Z.testbit (g_type (f_s s)) 0 || Z.testbit (g_type (f_s s)) 2 = true \/ just_alpha (g_type (f_s s)) = true).
Proof. split; intros s I; cbn in I; (destruct I as [E|[E|[E|[E|[E|[]]]]]]; try discriminate E; injection E as <-; cbn; [lia || (left; reflexivity)..]) || idtac; right; reflexivity. Qed.
Definition ex_bare : list real := [RG (mk_gfx 7 [] (mk_gsprite 0 1 1 0 0 0 0))].
Example C76_empty_example : zooms ex_bare /\ from_file ex_bare /\ match extract (fun d => 0) (fun a b c => 0) 2 new_ctx ex_bare with
  | Some (files, table) => files = [] /\ map e_mask (statements table 7) = [None] /\ map e_colour (statements table 7) = [None] /\ graphics_program [] [statements table 7] = Some (txt "g.add(EMPTY_SPRITE)" ++ [10])
  | None => False
  end.
Proof.
  split; [intros s [E|[]]; injection E as <-; cbn; lia|]. split; [intros s [E|[]]; injection E as <-; split; [constructor|cbn; lia]|]. vm_compute. repeat split; reflexivity.
Qed.

Print Assumptions C76_read_once.
Print Assumptions C76_runs.
Print Assumptions C76_alternatives_refuted.
Print Assumptions C76_empty_refuted.
