(** What the printing functions print contains no control characters, so
    that indentation is all that dedent and strip change. *)
From Coq Require Import ZArith List Bool Lia String.
From Verif Require Import Base BaseFacts CommonModel RecordsModel DecodeModel ParserModel GenPyModel PyValue SpecPython PyTextModel SpecPyText PyReadProofs PyIndentProofs PyStripProofs PyPartsProofs LexProofs.
Import ListNotations.
Open Scope Z_scope.

Lemma clean_cons c s : clean (c :: s) = cleanc c && clean s. Proof. reflexivity. Qed.
Lemma clean_digits s : forallb digitb s = true -> clean s = true.
Proof. unfold clean. rewrite !forallb_forall. intros H c I. specialize (H c I). unfold digitb in H. unfold cleanc. lia. Qed.
Lemma clean_int n : clean (str_int n) = true.
Proof.
  unfold str_int, str_nat. destruct (Z.ltb_spec n 0); [rewrite clean_cons; cbn [cleanc andb]|]; apply clean_digits, dec_digits_digits; lia.
Qed.
Lemma clean_hex_digit d : 0 <= d < 16 -> cleanc (hex_digit d) = true.
Proof. intros H. unfold hex_digit, cleanc. destruct (d <? 10) eqn:E; lia. Qed.
Lemma clean_esc q c : (q = 39 \/ q = 34) -> byteb c = true -> clean (repr_esc q c) = true.
Proof.
  intros Q B. unfold byteb in B. unfold repr_esc. destruct ((c =? q) || (c =? 92)) eqn:E1.
  - unfold clean. cbn [forallb]. unfold cleanc. lia.
  - destruct (c =? 9); [reflexivity|]. destruct (c =? 10); [reflexivity|]. destruct (c =? 13); [reflexivity|].
    destruct ((c <? 32) || (127 <=? c)) eqn:E2.
    + assert (0 <= c / 16 < 16) by (Z.to_euclidean_division_equations; lia). assert (0 <= c mod 16 < 16) by (apply Z.mod_pos_bound; lia).
      unfold clean. cbn [forallb]. rewrite !clean_hex_digit by assumption. reflexivity.
    + unfold clean. cbn [forallb]. unfold cleanc. lia.
Qed.
Lemma clean_chars s : forallb byteb s = true -> clean (repr_chars s) = true.
Proof.
  intros H. unfold repr_chars. cbv zeta. rewrite clean_cons, clean_app, clean_cons.
  assert (Q : cleanc (repr_quote s) = true) by (destruct (repr_quote_cases s) as [-> | ->]; reflexivity). rewrite Q.
  assert (F : clean (flat_map (repr_esc (repr_quote s)) s) = true).
  { pose proof (repr_quote_cases s) as RQ. generalize dependent (repr_quote s). intros q _ RQ. induction s as [|c s IH]; [reflexivity|].
    cbn [forallb] in H. apply andb_prop in H as [A B]. cbn [flat_map]. rewrite clean_app, clean_esc, IH by assumption. reflexivity. }
  rewrite F. reflexivity.
Qed.
Lemma clean_joins sep l : clean sep = true -> Forall (fun s => clean s = true) l -> clean (joins sep l) = true.
Proof.
  intros S F. induction F as [|a l A F IH]; [reflexivity|]. destruct l as [|b l]; [exact A|].
  change (joins sep (a :: b :: l)) with (a ++ sep ++ joins sep (b :: l)). rewrite !clean_app, A, S, IH. reflexivity.
Qed.
Lemma ascii_byte s : forallb asciib s = true -> forallb byteb s = true.
Proof. rewrite !forallb_forall. intros H c I. specialize (H c I). unfold asciib in H. unfold byteb. lia. Qed.
Lemma clean_name x : good_name x = true -> clean x = true.
Proof.
  intros G. destruct (good_first x G) as (_ & _ & _ & _ & I & _). unfold clean. rewrite forallb_forall in I |- *. intros c J. specialize (I c J).
  unfold identb, letterb, digitb in I. unfold cleanc. lia.
Qed.
Lemma clean_map_repr (l : list py) : Forall (fun v => wfp v = true -> clean (repr v) = true) l -> forallb wfp l = true -> Forall (fun s => clean s = true) (map repr l).
Proof.
  intros F W. apply Forall_map. rewrite forallb_forall in W. rewrite Forall_forall in F |- *. intros x I. apply F; [exact I|apply W, I].
Qed.
Lemma clean_head f : head_ok f = true -> clean (repr f) = true.
Proof.
  intros H. destruct f; try discriminate.
  - apply clean_name. exact H.
  - destruct f; try discriminate. cbn [head_ok] in H. apply andb_prop in H as [A B]. cbn [repr]. rewrite clean_app, clean_cons, !clean_name by assumption. reflexivity.
Qed.
Lemma clean_repr : forall v, wfp v = true -> clean (repr v) = true.
Proof.
  induction v using py_ind2; intros W; cbn [wfp] in W; try discriminate.
  - reflexivity.
  - destruct b; reflexivity.
  - apply clean_int.
  - cbn [repr]. rewrite clean_cons. apply clean_chars. exact W.
  - cbn [repr]. apply clean_chars, ascii_byte. exact W.
  - pose proof (clean_map_repr l H W) as C. cbn [repr]. destruct l as [|a [|b l]]; [reflexivity| |].
    + inversion C; subst. rewrite clean_cons, clean_app. rewrite H2. reflexivity.
    + rewrite clean_cons, clean_app, clean_joins by (reflexivity || exact C). reflexivity.
  - pose proof (clean_map_repr l H W) as C. cbn [repr]. rewrite clean_cons, clean_app, clean_joins by (reflexivity || exact C). reflexivity.
  - cbn [repr]. rewrite clean_cons, clean_app, clean_joins; [reflexivity|reflexivity|]. apply Forall_map. rewrite forallb_forall in W. rewrite Forall_forall in H |- *.
    intros e I. destruct (H e I) as [A B]. specialize (W e I). apply andb_prop in W as [W1 W2]. rewrite !clean_app, (A W1), (B W2). reflexivity.
  - apply clean_name. exact W.
  - apply clean_head. exact W.
  - cbn [repr]. apply andb_prop in W as [W W3]. apply andb_prop in W as [W1 W2]. rewrite clean_app, clean_cons, clean_app, (clean_head _ W1).
    rewrite clean_joins; [reflexivity|reflexivity|]. apply Forall_map. rewrite forallb_forall in W3. rewrite Forall_forall in H |- *.
    intros [x w] I. specialize (W3 _ I). apply andb_prop in W3 as [N V]. specialize (H _ I V). cbn [fst snd] in *. destruct x as [|c x]; [exact H|].
    rewrite clean_app, (clean_name _ N), clean_cons, H. reflexivity.
Qed.
Lemma clean_lstrip' s : clean s = true -> clean (lstrip s) = true. Proof. apply clean_lstrip. Qed.
Lemma clean_removelast s : clean s = true -> clean (removelast s) = true.
Proof.
  unfold clean. rewrite !forallb_forall. intros H c I. apply H. clear H. induction s as [|a s IH]; [exact I|]. cbn [removelast] in I. destruct s as [|b s]; [destruct I|].
  destruct I as [-> | I]; [left; reflexivity|right; apply IH; exact I].
Qed.
Lemma clean_py_dict l : Forall (fun e => clean (fst e) = true /\ clean (snd e) = true) l -> clean (py_dict l) = true.
Proof.
  intros F. unfold py_dict. match goal with |- context [flat_map ?f l] => set (res := flat_map f l) end.
  assert (C : clean res = true).
  { subst res. induction F as [|e l [A B] F IH]; [reflexivity|]. cbn [flat_map]. rewrite clean_app, IH, andb_true_r.
    destruct e as [x y]. cbn [fst snd] in *. rewrite clean_cons, !clean_app, A, B, clean_repeat. reflexivity. }
  destruct res as [|c r] eqn:E; [reflexivity|]. destruct (existsb (Z.eqb 10) r).
  - rewrite clean_cons, clean_app, C, clean_cons, clean_app, clean_repeat. reflexivity.
  - rewrite clean_cons, clean_app. rewrite clean_lstrip by (apply clean_removelast; exact C). reflexivity.
Qed.
Lemma clean_climate v : clean (climate_text v) = true.
Proof.
  unfold climate_text. destruct (v =? 0); [reflexivity|]. destruct (v =? 15); [reflexivity|]. destruct (negb _); [apply clean_int|].
  apply clean_joins; [reflexivity|]. apply Forall_map. rewrite Forall_forall. intros e I. apply filter_In in I as [I _].
  destruct I as [<- | [<- | [<- | [<- | []]]]]; reflexivity.
Qed.
Lemma clean_04x n : 0 <= n -> clean (txt "0x" ++ fmt_04x n) = true.
Proof.
  intros H. rewrite clean_app. unfold fmt_04x, hex_nat. rewrite clean_app. destruct (hex_digits_hex (S (Z.to_nat n)) n ltac:(lia)) as [F _].
  assert (A : clean (repeat 48 (4 - List.length (hex_digits (S (Z.to_nat n)) n))) = true) by (induction (4 - _)%nat; [reflexivity|assumption]).
  rewrite A. cbn [andb]. apply andb_true_intro. split; [reflexivity|]. apply forallb_forall. rewrite Forall_forall in F. intros c I. destruct (F c I) as [v Hv].
  unfold hexval, digitb in Hv. unfold cleanc. destruct ((48 <=? c) && (c <=? 57)) eqn:E1; [lia|]. destruct ((97 <=? c) && (c <=? 102)) eqn:E2; [lia|]. destruct ((65 <=? c) && (c <=? 70)) eqn:E3; [lia|discriminate].
Qed.
Lemma clean_code s : forallb codec s = true -> clean s = true.
Proof. unfold clean. rewrite !forallb_forall. intros H c I. specialize (H c I). unfold codec, codeb in H. unfold cleanc. lia. Qed.
(** repr of bytes has no line feed. *)
Lemma one_line_chars s : forallb byteb s = true -> ~ In 10 (repr_chars s).
Proof.
  intros H. unfold repr_chars. cbv zeta. pose proof (repr_quote_cases s) as Q. intros [I | I]; [destruct Q; lia|].
  apply in_app_or in I as [I | [I | []]]; [|destruct Q; lia]. apply in_flat_map in I as (c & J & I). rewrite forallb_forall in H. specialize (H c J).
  unfold byteb in H. generalize dependent (repr_quote s). intros q Q I. unfold repr_esc in I. destruct ((c =? q) || (c =? 92)) eqn:E1.
  - destruct I as [I | [I | []]]; lia.
  - destruct (c =? 9); [destruct I as [I | [I | []]]; lia|]. destruct (c =? 10) eqn:E; [destruct I as [I | [I | []]]; lia|]. destruct (c =? 13); [destruct I as [I | [I | []]]; lia|].
    destruct ((c <? 32) || (127 <=? c)) eqn:E2; [|destruct I as [I | []]; lia].
    assert (0 <= c / 16 < 16) by (Z.to_euclidean_division_equations; lia). assert (0 <= c mod 16 < 16) by (apply Z.mod_pos_bound; lia).
    assert (X : forall d, 0 <= d < 16 -> hex_digit d <> 10) by (intros d D; unfold hex_digit; destruct (d <? 10) eqn:?; lia).
    destruct I as [I | [I | [I | [I | []]]]]; try lia; [exact (X _ H0 I)|exact (X _ H1 I)].
Qed.
