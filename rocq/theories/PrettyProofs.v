(** What the pretty printer prints reads as the value. *)
From Coq Require Import ZArith List Bool Lia String.
From Verif Require Import Base BaseFacts ParserModel PyValue SpecPython PyTextModel PrettyModel SpecPyText PyReadProofs PyIndentProofs PyStripProofs PyPartsProofs PyCleanProofs PyStmtProofs PyTextProofs.
Import ListNotations.
Open Scope string_scope.
Open Scope list_scope.
Open Scope Z_scope.

(** ** Lists and dicts with any blanks after the commas *)
Definition comma : bytes := [44].
Definition piece := (bytes * py)%type.
Definition good_piece (e : piece) : Prop := reads true (fst e) (snd e) /\ clean (fst e) = true.
Lemma items_commas (close : Z) (rest : bytes) : (close = 41 \/ close = 93) -> forall (l : list piece) (e : piece) (n : nat),
  Forall (fun e => reads true (fst e) (snd e)) (e :: l) ->
  (6 * List.length (joins comma (map fst (e :: l))) + 2 <= n)%nat ->
  items n close (joins comma (map fst (e :: l)) ++ close :: rest) = Some (map snd (e :: l), rest).
Proof.
  intros C. induction l as [|e' l IH]; intros e n F L; inversion F as [|? ? Fe Fl]; subst.
  - cbn [map joins] in L |- *. destruct n as [|n]; [lia|]. apply items_last; [exact C|exact Fe|lia].
  - cbn [map] in L |- *. change (joins comma (fst e :: fst e' :: map fst l)) with (fst e ++ 44 :: joins comma (map fst (e' :: l))) in L |- *.
    rewrite !app_length in L. cbn [List.length] in L. rewrite <- app_assoc. cbn [app].
    pose proof (reads_len _ _ _ Fe). destruct n as [|n]; [lia|]. rewrite (items_cons n close _ _ _ C Fe) by lia. rewrite IH by (assumption || lia). reflexivity.
Qed.
Lemma items_blank (n : nat) (close : Z) (pre rest : bytes) : (close = 41 \/ close = 93) -> skips pre -> items (Datatypes.S n) close (pre ++ close :: rest) = Some ([], rest).
Proof.
  intros C P. cbn [items]. rewrite P. assert (CC : closec close = true) by (destruct C as [-> | ->]; reflexivity).
  rewrite ws_closing by exact CC. rewrite Z.eqb_refl. reflexivity.
Qed.
Lemma items_skip (n : nat) (close : Z) (pre s : bytes) : skips pre -> items n close (pre ++ s) = items n close s.
Proof. intros P. destruct n; [reflexivity|]. cbn [items]. now rewrite P. Qed.
Lemma reads_list (pre : bytes) (l : list piece) : skips pre -> Forall (fun e => reads true (fst e) (snd e)) l ->
  reads true (91 :: pre ++ joins comma (map fst l) ++ [93]) (YList (map snd l)).
Proof.
  intros P F. apply ureads_reads. intros n rest S L. cbn [app]. rewrite <- !app_assoc. cbn [app].
  cbn [List.length] in L. rewrite !app_length in L. cbn [List.length] in L.
  destruct n as [|[|n]]; [lia..|]. rewrite unary_atom by (reflexivity || discriminate). cbn [atom].
  change (91 =? 40) with false. change (91 =? 91) with true. cbv iota.
  destruct l as [|e l].
  - cbn [map joins app]. destruct n as [|n]; [cbn in L; lia|]. rewrite (items_blank n 93 pre rest (or_intror eq_refl) P). reflexivity.
  - rewrite items_skip by exact P. rewrite items_commas; [reflexivity|right; reflexivity|exact F|lia].
Qed.
Lemma reads_tuple (pre : bytes) (l : list piece) : skips pre -> Forall (fun e => reads true (fst e) (snd e)) l ->
  reads true (40 :: pre ++ joins comma (map fst l) ++ match l with [_] => [44; 41] | _ => [41] end) (YTuple (map snd l)).
Proof.
  intros P F. apply ureads_reads. intros n rest S L. destruct l as [|e [|e' l]].
  - cbn [map joins app] in *. rewrite <- app_assoc. cbn [app]. cbn [List.length] in L. rewrite app_length in L. cbn [List.length] in L.
    destruct n as [|[|n]]; [lia..|]. rewrite unary_atom by (reflexivity || discriminate). cbn [atom]. change (40 =? 40) with true. cbv iota. rewrite P, ws_closing by reflexivity. reflexivity.
  - inversion F as [|? ? Fe _]; subst. cbn [map joins app] in *. rewrite <- !app_assoc. cbn [app]. rewrite app_assoc. cbn [List.length] in L. rewrite !app_length in L. cbn [List.length] in L.
    destruct n as [|[|n]]; [lia..|]. rewrite unary_atom by (reflexivity || discriminate).
    destruct (closing_stops true 44 (41 :: rest) eq_refl) as [S1 B1]. pose proof (reads_pre pre _ _ P Fe) as Fp.
    rewrite (paren_first n _ _ _ _ Fp S1 B1) by (rewrite app_length; lia). destruct n as [|n]; [lia|]. reflexivity.
  - inversion F as [|? ? Fe Fl]; subst. change (joins comma (map fst (e :: e' :: l))) with (fst e ++ 44 :: joins comma (map fst (e' :: l))) in L |- *.
    set (J := joins comma (map fst (e' :: l))) in *. cbn [app]. rewrite <- !app_assoc. cbn [app]. rewrite <- ?app_assoc. cbn [List.length] in L. rewrite !app_length in L. cbn [List.length] in L. rewrite ?app_length in L. cbn [List.length] in L.
    destruct n as [|[|n]]; [lia..|]. rewrite unary_atom by (reflexivity || discriminate). rewrite app_assoc.
    destruct (closing_stops true 44 (J ++ 41 :: rest) eq_refl) as [S1 B1]. pose proof (reads_pre pre _ _ P Fe) as Fp.
    rewrite (paren_first n _ _ _ _ Fp S1 B1) by (rewrite app_length; lia). rewrite ws_closing by reflexivity.
    unfold J in *. rewrite items_commas; [reflexivity|left; reflexivity|exact Fl|lia].
Qed.

Lemma entries_skip (n : nat) (pre s : bytes) : skips pre -> entries n (pre ++ s) = entries n s.
Proof. intros P. destruct n; [reflexivity|]. cbn [entries]. now rewrite P. Qed.
Definition entry_text (e : piece * piece) : bytes := fst (fst e) ++ 58 :: fst (snd e).
Definition entry_py (e : piece * piece) : py * py := (snd (fst e), snd (snd e)).
Definition good_entry (e : piece * piece) : Prop := good_piece (fst e) /\ good_piece (snd e).
Lemma entries_commas (rest : bytes) : forall (l : list (piece * piece)) (e : piece * piece) (n : nat), Forall good_entry (e :: l) ->
  (6 * List.length (joins comma (map entry_text (e :: l))) + 2 <= n)%nat ->
  entries n (joins comma (map entry_text (e :: l)) ++ 125 :: rest) = Some (map entry_py (e :: l), rest).
Proof.
  induction l as [|e' l IH]; intros [[s k] [sv v]] n F L; inversion F as [|? ? [[F1 _] [F2 _]] Fl]; subst; cbn [fst snd] in F1, F2.
  - change (joins comma (map entry_text [((s, k), (sv, v))])) with (s ++ 58 :: sv) in L |- *. rewrite app_length in L. cbn [List.length] in L. rewrite <- app_assoc. cbn [app].
    destruct n as [|n]; [lia|]. destruct (closing_stops true 125 rest eq_refl) as [S B].
    rewrite (entries_step n s k sv v (125 :: rest) F1 F2) by (assumption || lia). rewrite ws_closing by reflexivity. reflexivity.
  - change (joins comma (map entry_text (((s, k), (sv, v)) :: e' :: l))) with ((s ++ 58 :: sv) ++ 44 :: joins comma (map entry_text (e' :: l))) in L |- *.
    rewrite !app_length in L. cbn [List.length] in L. rewrite <- !app_assoc. cbn [app]. pose proof (reads_len _ _ _ F1). pose proof (reads_len _ _ _ F2). destruct n as [|n]; [lia|].
    destruct (closing_stops true 44 (joins comma (map entry_text (e' :: l)) ++ 125 :: rest) eq_refl) as [S B].
    rewrite (entries_step n s k sv v _ F1 F2) by (assumption || lia). rewrite ws_closing by reflexivity. rewrite IH by (assumption || lia). reflexivity.
Qed.
Lemma reads_dict (pre : bytes) (l : list (piece * piece)) : skips pre -> Forall good_entry l ->
  reads true (123 :: pre ++ joins comma (map entry_text l) ++ [125]) (YDict (map entry_py l)).
Proof.
  intros P F. apply ureads_reads. intros n rest S L. cbn [app]. rewrite <- !app_assoc. cbn [app].
  cbn [List.length] in L. rewrite !app_length in L. cbn [List.length] in L.
  destruct n as [|[|n]]; [lia..|]. rewrite unary_atom by (reflexivity || discriminate). cbn [atom].
  change (123 =? 40) with false. change (123 =? 91) with false. change (123 =? 123) with true. cbv iota. rewrite entries_skip by exact P.
  destruct l as [|e l].
  - cbn [map joins app]. destruct n as [|n]; [cbn in L; lia|]. reflexivity.
  - rewrite entries_commas; [reflexivity|exact F|lia].
Qed.

(** ** Items *)
Definition delim_ok (d : bytes) : Prop := d = [] \/ exists p, d = 44 :: p /\ skips p /\ clean p = true.
Definition first_comma (d : bytes) : bytes := match d with [] => [] | _ => comma end.
Lemma delim_nl_ok i : delim_ok (delim_nl i).
Proof. right. eexists. split; [reflexivity|]. split; [apply skips_blank|]. rewrite clean_cons. apply clean_repeat. Qed.
Lemma joined_ok d p e l pieces : delim_ok d -> good_piece (p, e) -> (l = [] -> pieces = []) -> (l <> [] -> pieces <> []) -> map snd pieces = l -> Forall good_piece pieces ->
  exists ps : list piece, d ++ p ++ match pieces with [] => [] | _ => 44 :: joins comma (map fst pieces) end = first_comma d ++ joins comma (map fst ps) /\
     map snd ps = e :: l /\ Forall good_piece ps.
Proof.
  intros D [G1 G2] _ _ M F. destruct D as [-> | (q & -> & Q & C)].
  - exists ((p, e) :: pieces). cbn [map fst snd]. split; [|split; [now rewrite M|constructor; [split; assumption|exact F]]].
    destruct pieces as [|x pieces]; [cbn; now rewrite app_nil_r|]. reflexivity.
  - exists ((q ++ p, e) :: pieces). cbn [map fst snd]. split; [|split; [now rewrite M|constructor; [split; cbn [fst snd] in *; [apply reads_pre; assumption|rewrite clean_app, C, G2; reflexivity]|exact F]]].
    destruct pieces as [|x pieces]; cbn [first_comma comma app]; [cbn; now rewrite app_nil_r|]. cbn [map joins]. rewrite <- app_assoc. reflexivity.
Qed.
Lemma items_pieces (f : py -> Z -> bytes) i a : forall l w mw d,
  Forall (fun e => wfp e = true /\ forall a, good_piece (f e a, e)) l -> delim_ok d ->
  exists pieces : list piece, format_items f i a l w mw d = (match l with [] => [] | _ => first_comma d ++ joins comma (map fst pieces) end) /\
    map snd pieces = l /\ Forall good_piece pieces.
Proof.
  induction l as [|e l IH]; intros w mw d F D; [exists []; repeat split; constructor|]. inversion F as [|? ? [W G] Fl]; subst.
  assert (R : good_piece (repr e, e)) by (split; [apply good_reads, repr_good, W|apply clean_repr, W]).
  cbn [format_items]. fold (format_items f i a).
  set (mw' := if match l with [] => true | _ => false end then mw - a else mw). set (w' := if match l with [] => true | _ => false end then w - a else w).
  set (c := w' <? len (repr e) + 2). set (d' := match d with [] => [] | _ => delim_nl i end).
  assert (X : exists w2 d2, (if c then (mw', d') else (w', d)) = (w2, d2) /\ delim_ok d2 /\ first_comma d2 = first_comma d).
  { destruct c; eexists; eexists; (split; [reflexivity|]); [|split; [exact D|reflexivity]]. unfold d'. destruct d; [split; [left; reflexivity|reflexivity]|]. split; [apply delim_nl_ok|reflexivity]. }
  destruct X as (w2 & d2 & -> & D2 & E2). cbv zeta. rewrite <- E2.
  destruct (len (repr e) + 2 <=? w2).
  - destruct (IH (w2 - (len (repr e) + 2)) mw' (txt ", ") Fl) as (ps & E & M & Fp).
    { right. exists [32]. repeat split. }
    rewrite E. destruct (joined_ok d2 (repr e) e l ps D2 R) as (qs & Eq & Mq & Fq); try assumption.
    { intros ->. destruct ps; [reflexivity|discriminate]. } { intros N ->. apply N. symmetry. exact M. }
    exists qs. split; [|split; assumption]. rewrite <- Eq. destruct l; destruct ps; try discriminate; reflexivity.
  - destruct (IH w2 mw' (delim_nl i) Fl (delim_nl_ok i)) as (ps & E & M & Fp). rewrite E.
    set (al := if match l with [] => true | _ => false end then a else 1).
    destruct (joined_ok d2 (f e al) e l ps D2 (G al)) as (qs & Eq & Mq & Fq); try assumption.
    { intros ->. destruct ps; [reflexivity|discriminate]. } { intros N ->. apply N. symmetry. exact M. }
    exists qs. split; [|split; assumption]. rewrite <- Eq. destruct l; destruct ps; try discriminate; reflexivity.
Qed.
Lemma prefix_first p s1 k1 v1 (ps : list (piece * piece)) :
  joins comma (map entry_text ((((p ++ s1 : bytes), k1), v1) :: ps)) = p ++ joins comma (map entry_text (((s1, k1), v1) :: ps)).
Proof. destruct ps as [|x ps]; cbn [map joins]; unfold entry_text; cbn [fst snd]; rewrite <- ?app_assoc; reflexivity. Qed.
Lemma dict_pieces (f : py -> Z -> Z -> bytes) i a : forall l,
  Forall (fun e => wfp (fst e) = true /\ forall a k, good_piece (f (snd e) a k, snd e)) l ->
  exists ps : list (piece * piece), format_dict_items f i a l = joins comma (map entry_text ps) /\ map entry_py ps = l /\ Forall good_entry ps.
Proof.
  induction l as [|[k e] l IH]; intros F; [exists []; repeat split; constructor|]. inversion F as [|? ? [W G] Fl]; subst. cbn [fst snd] in W, G.
  assert (R : good_piece (repr k, k)) by (split; [apply good_reads, repr_good, W|apply clean_repr, W]).
  destruct (IH Fl) as (ps & E & M & Fp). cbn [format_dict_items]. fold (format_dict_items f i a). rewrite E.
  set (al := if match l with [] => true | _ => false end then a else 1). set (kw := len (repr k) + 2).
  assert (V : good_piece (32 :: f e al kw, e)).
  { destruct (G al kw) as [G1 G2]. split; cbn [fst snd] in *; [apply (reads_pre [32]); [apply skips_space|exact G1]|rewrite clean_cons, G2; reflexivity]. }
  destruct ps as [|[[s1 k1] v1] ps].
  - destruct l; [|discriminate]. exists [((repr k, k), (32 :: f e al kw, e))]. split; [cbn [map joins entry_text fst snd]; change (txt ": ") with [58; 32]; cbn [app]; now rewrite app_nil_r|].
    split; [reflexivity|]. constructor; [split; assumption|constructor].
  - destruct l as [|x l]; [discriminate|]. inversion Fp as [|? ? [[P1 P2] PV] Fps]; subst. cbn [fst snd] in P1, P2.
    exists (((repr k, k), (32 :: f e al kw, e)) :: ((10 :: blanks i ++ s1, k1), v1) :: ps). split; [|split].
    + change (10 :: blanks i ++ s1) with ((10 :: blanks i) ++ s1).
      change (joins comma (map entry_text (((repr k, k), (32 :: f e al kw, e)) :: (((10 :: blanks i) ++ s1, k1), v1) :: ps)))
        with ((repr k ++ 58 :: 32 :: f e al kw) ++ 44 :: joins comma (map entry_text ((((10 :: blanks i) ++ s1, k1), v1) :: ps))).
      rewrite prefix_first. unfold delim_nl. change (txt ": ") with [58; 32]. rewrite <- app_assoc. reflexivity.
    + cbn [map]. unfold entry_py at 1 2. cbn [fst snd]. f_equal. rewrite <- M. reflexivity.
    + constructor; [split; assumption|]. constructor; [|exact Fps]. split; [|exact PV]. split; cbn [fst snd].
      * apply (reads_pre (10 :: blanks i)); [apply skips_blank|exact P1].
      * change (10 :: blanks i ++ s1) with ((10 :: blanks i) ++ s1). rewrite clean_app, P2, clean_cons. unfold blanks. rewrite clean_repeat. reflexivity.
Qed.

(** ** Bytes over several lines *)
Fixpoint fours_concat (b : bytes) {struct b} : List.concat (fours b) = b.
Proof.
  destruct b as [|a [|b0 [|c [|d r]]]]; try reflexivity. cbn [fours List.concat app]. do 4 f_equal. apply fours_concat.
Qed.
Lemma wrap_concat : forall parts w a cur, List.concat (wrap_bytes parts w a cur) = cur ++ List.concat parts.
Proof.
  induction parts as [|p parts IH]; intros w a cur; cbn [wrap_bytes List.concat].
  - destruct cur; cbn [List.concat]; now rewrite ?app_nil_r.
  - cbv zeta. destruct (_ <? _).
    + destruct cur as [|c cur]; [rewrite IH; reflexivity|]. cbn [List.concat]. rewrite IH. reflexivity.
    + rewrite IH, <- app_assoc. reflexivity.
Qed.
Lemma concat_bytes (l : list bytes) : forallb byteb (List.concat l) = true -> Forall (fun b => forallb byteb b = true) l.
Proof. induction l as [|b l IH]; intros H; [constructor|]. cbn [List.concat] in H. rewrite forallb_app in H. apply andb_prop in H. constructor; [apply H|apply IH, H]. Qed.
Definition chunk (b : bytes) : bytes := repr (YBytes b).
Lemma chunk_len b : (3 <= List.length (chunk b))%nat.
Proof. unfold chunk. cbn [repr]. unfold repr_chars. cbn [List.length]. rewrite app_length. cbn [List.length]. lia. Qed.
Lemma more_chunks (sep : bytes) (rest : bytes) : (forall t, ws true (sep ++ t) = ws true t) -> (match sep with c :: _ => quoteb c = false | [] => False end) -> stops true rest ->
  forall (l : list bytes) acc (n : nat), Forall (fun b => forallb byteb b = true) l -> (List.length l < n)%nat ->
  more_bytes n true acc (flat_map (fun b => sep ++ chunk b) l ++ rest) = Some (acc ++ List.concat l, rest).
Proof.
  intros P Q S. induction l as [|b l IH]; intros acc n F L; (destruct n as [|n]; [cbn [List.length] in L; lia|]); cbn [List.length] in L.
  - cbn [flat_map List.concat app]. rewrite app_nil_r. apply more_bytes_stop, S.
  - inversion F as [|? ? B Fl]; subst. cbn [flat_map more_bytes]. rewrite <- !app_assoc, P. unfold chunk at 1. cbn [repr app]. rewrite ws_cons by reflexivity. rewrite bytes_repr.
    + rewrite IH by (assumption || lia). cbn [List.concat]. now rewrite app_assoc.
    + exact B.
    + destruct l as [|b' l]; cbn [flat_map app]; [apply (stops_noquote true), S|]. destruct sep; [contradiction|]. exact Q.
Qed.
Lemma joins_flat (sep b : bytes) (l : list bytes) : joins sep (map chunk (b :: l)) = chunk b ++ flat_map (fun b => sep ++ chunk b) l.
Proof.
  revert b. induction l as [|c l IH]; intros b; [cbn; now rewrite app_nil_r|].
  change (joins sep (map chunk (b :: c :: l))) with (chunk b ++ sep ++ joins sep (map chunk (c :: l))). rewrite IH. cbn [flat_map]. now rewrite <- app_assoc.
Qed.
Lemma flat_len (sep : bytes) (l : list bytes) : (3 * List.length l <= List.length (flat_map (fun b => sep ++ chunk b) l))%nat.
Proof. induction l as [|b l IH]; [cbn; lia|]. cbn [flat_map List.length]. rewrite !app_length. pose proof (chunk_len b). lia. Qed.
Lemma reads_chunks (i : Z) (b : bytes) (l : list bytes) : forallb byteb (List.concat (b :: l)) = true ->
  reads true (joins (10 :: blanks i) (map chunk (b :: l))) (YBytes (List.concat (b :: l))).
Proof.
  intros B. pose proof (concat_bytes _ B) as F. inversion F as [|? ? Fb Fl]; subst. rewrite joins_flat. apply ureads_reads. intros n rest S L.
  set (sep := 10 :: blanks i) in *. rewrite app_length in L. pose proof (chunk_len b). pose proof (flat_len sep l). rewrite <- app_assoc.
  destruct n as [|[|n]]; [lia..|]. unfold chunk at 1. cbn [repr app]. rewrite unary_atom by (reflexivity || discriminate). cbn [atom].
  change (98 =? 40) with false. change (98 =? 91) with false. change (98 =? 123) with false. change (digitb 98) with false. change (quoteb 98) with false. cbv iota.
  assert (P : forall t, ws true (sep ++ t) = ws true t) by (apply skips_blank).
  rewrite bytes_repr.
  - rewrite more_chunks; [reflexivity|exact P|reflexivity|exact S|exact Fl|lia].
  - exact Fb.
  - destruct l as [|b' l]; cbn [flat_map app]; [apply (stops_noquote true), S|]. reflexivity.
Qed.
Lemma paren_reads s v : reads true s v -> reads true (40 :: s ++ [41]) v.
Proof.
  intros R. apply ureads_reads. intros n rest S L. cbn [List.length] in L. rewrite app_length in L. cbn [List.length] in L. cbn [app]. rewrite <- app_assoc. cbn [app].
  destruct n as [|[|n]]; [lia..|]. rewrite unary_atom by (reflexivity || discriminate). destruct (closing_stops true 41 rest eq_refl) as [S1 B1].
  rewrite (paren_first n true s v _ R S1 B1) by lia. rewrite ws_closing by reflexivity. reflexivity.
Qed.
Lemma bytes_pieces b top i a : forallb byteb b = true -> good_piece (pprint_bytes b top i a, YBytes b).
Proof.
  intros B. unfold pprint_bytes. destruct (len b <=? 4) eqn:E; [split; [apply good_reads, repr_good; exact B|apply clean_repr; exact B]|].
  cbv zeta. set (i' := if top then i + 1 else i). set (a' := if top then a + 1 else a).
  pose proof (wrap_concat (fours b) (120 - i') a' []) as C. rewrite fours_concat in C. cbn [app] in C. destruct (wrap_bytes (fours b) (120 - i') a' []) as [|c l]; [cbn in C; subst b; discriminate|].
  rewrite <- C in B. change (map (fun c => repr (YBytes c)) (c :: l)) with (map chunk (c :: l)).
  assert (R : reads true (joins (10 :: blanks i') (map chunk (c :: l))) (YBytes b)) by (rewrite <- C; apply reads_chunks, B).
  assert (K : clean (joins (10 :: blanks i') (map chunk (c :: l))) = true).
  { apply clean_joins; [rewrite clean_cons; apply clean_repeat|]. apply Forall_map. eapply Forall_impl; [|exact (concat_bytes _ B)]. intros x X. apply clean_repr. exact X. }
  destruct top; split; cbn [fst snd]; try assumption; [apply paren_reads, R|]. rewrite clean_cons, clean_app, K. reflexivity.
Qed.

(** ** All values *)
Lemma literal_wfp : forall v, literal v = true -> wfp v = true.
Proof.
  induction v using py_ind2; intros W; cbn [literal wfp] in *; try exact W; try reflexivity; try discriminate; rewrite forallb_forall in W |- *; rewrite Forall_forall in H; intros x I.
  - apply H; [exact I|apply W, I].
  - apply H; [exact I|apply W, I].
  - specialize (W x I). apply andb_prop in W as [A B]. destruct (H x I) as [HA HB]. now rewrite (HA A), (HB B).
Qed.
Lemma repr_piece v : literal v = true -> good_piece (repr v, v).
Proof. intros L. apply literal_wfp in L. split; [apply good_reads, repr_good, L|apply clean_repr, L]. Qed.
Lemma joined_clean (ps : list piece) : Forall good_piece ps -> clean (joins comma (map fst ps)) = true.
Proof. intros F. apply clean_joins; [reflexivity|]. apply Forall_map. eapply Forall_impl; [|exact F]. intros p P. apply P. Qed.
Lemma entries_clean (ps : list (piece * piece)) : Forall good_entry ps -> clean (joins comma (map entry_text ps)) = true.
Proof.
  intros F. apply clean_joins; [reflexivity|]. apply Forall_map. eapply Forall_impl; [|exact F]. intros [[s k] [t v]] [[_ A] [_ B]]. unfold entry_text. cbn [fst snd] in *.
  rewrite clean_app, clean_cons, A, B. reflexivity.
Qed.
Lemma good_reading (ps : list piece) : Forall good_piece ps -> Forall (fun e : piece => reads true (fst e) (snd e)) ps.
Proof. intros F. eapply Forall_impl; [|exact F]. intros p P. apply P. Qed.
Lemma items_all (l : list py) (f : py -> Z -> bytes) i a w : Forall (fun e => wfp e = true /\ forall a, good_piece (f e a, e)) l ->
  exists ps : list piece, format_items f i a l w w [] = joins comma (map fst ps) /\ map snd ps = l /\ Forall good_piece ps.
Proof.
  intros F. destruct (items_pieces f i a l w w [] F (or_introl eq_refl)) as (ps & E & M & G). exists ps. split; [|split; assumption]. rewrite E.
  destruct l; [destruct ps; [reflexivity|discriminate]|reflexivity].
Qed.
Theorem pretty_piece : forall v, literal v = true -> quiet v = true -> forall top i a, good_piece (format_value v top i a, v).
Proof.
  assert (SUB : forall l, Forall (fun v => literal v = true -> quiet v = true -> forall top i a, good_piece (format_value v top i a, v)) l ->
    forallb literal l = true -> forallb quiet l = true -> forall i, Forall (fun e => wfp e = true /\ forall a, good_piece (format_value e false i a, e)) l).
  { intros l IH L Q i. rewrite forallb_forall in L, Q. apply Forall_forall. intros e I. rewrite Forall_forall in IH. split; [apply literal_wfp, L, I|]. intros a. apply IH; [exact I|apply L, I|apply Q, I]. }
  induction v using py_ind2; intros L Q top i a; try discriminate; cbn [format_value]; (destruct (_ <? _); [|apply repr_piece, L]); try (apply repr_piece, L).
  - apply bytes_pieces, L.
  - cbn [literal quiet] in L, Q. cbv zeta. destruct (items_all l (fun e a => format_value e false (i + 4) a) (i + 4) (a + len match l with [_] => [44; 41] | _ => [41] end) (120 - (i + 4) + 1) (SUB l H L Q (i + 4))) as (ps & E & M & G).
    rewrite E. subst l. split; cbn [fst snd].
    + replace (match map snd ps with [_] => [44; 41] | _ => [41] end) with (match ps with [_] => [44; 41] | _ => [41] end) by (destruct ps as [|? [|? ?]]; reflexivity).
      apply reads_tuple; [apply skips_spaces|apply good_reading, G].
    + rewrite clean_cons, !clean_app, joined_clean by exact G. unfold blanks. rewrite clean_repeat. destruct (map snd ps) as [|? [|? ?]]; reflexivity.
  - cbn [literal quiet] in L, Q. destruct (items_all l (fun e a => format_value e false (i + 4) a) (i + 4) (a + 1) (120 - (i + 4) + 1) (SUB l H L Q (i + 4))) as (ps & E & M & G).
    rewrite E. subst l. split; cbn [fst snd].
    + apply reads_list; [apply skips_spaces|apply good_reading, G].
    + rewrite clean_cons, !clean_app, joined_clean by exact G. unfold blanks. rewrite clean_repeat. reflexivity.
  - cbn [literal quiet] in L, Q.
    assert (F : Forall (fun e => wfp (fst e) = true /\ forall a k, good_piece ((fun e a k => format_value e false (i + 4 + k) a) (snd e) a k, snd e)) l).
    { rewrite forallb_forall in L, Q. rewrite Forall_forall in H |- *. intros e I. specialize (L e I). apply andb_prop in L. destruct L as [L1 L2]. split; [apply literal_wfp, L1|]. intros a0 k. apply H; [exact I|exact L2|apply Q, I]. }
    destruct (dict_pieces (fun e a k => format_value e false (i + 4 + k) a) (i + 4) (a + 1) l F) as (ps & E & M & G).
    rewrite E. rewrite <- M. split; cbn [fst snd].
    + apply reads_dict; [apply skips_spaces|exact G].
    + rewrite clean_cons, !clean_app, entries_clean by exact G. unfold blanks. rewrite clean_repeat. reflexivity.
Qed.
