(** C48: printed switch code reads back; C11 through the text. *)
From Coq Require Import ZArith List Bool String Lia.
From Verif Require Import Base BaseFacts CommonModel RecordsModel Action14Model DecodeModel VA2Model SpecVA2 VA2Proofs VA2Compile VA2Switch VA2Simplify VA2DecodeModel SpecVA2Decode VA2Decode VA2Total VA2Vars PropsVA2
  ParserModel SpecParser LexProofs ParserProofs RegroupProofs MeaningProofs.
Import ListNotations.
Open Scope string_scope.
Open Scope list_scope.
Open Scope Z_scope.

(** The text of an expression with a notation, and with bitwise operators
    nested only as the printer brackets them, is read as that expression,
    except that numbers come back signed, comparisons as what they stand for,
    and operators of one line of the precedence table are grouped to the left. *)
Theorem C48_text_partial : forall hx e, printable e = true -> grouped e = true ->
  exists s, fmt hx e 0 = Some s /\ parse_code s = Some [lower (signed (regroup e))].
Proof.
  intros hx e P G. destruct (text_reads hx [e]) as (s & F & R); [cbn; rewrite P; reflexivity|cbn; rewrite G; reflexivity|]. exists s. split; [exact F|exact R].
Qed.
(** .. and several lines as several expressions. *)
Theorem C48_lines_partial : forall hx l, forallb printable l = true -> forallb grouped l = true ->
  exists s, fmt_lines hx l = Some s /\ parse_code s = Some (map (fun e => lower (signed (regroup e))) l).
Proof. exact text_reads. Qed.
(** The very same expression comes back when it has no comparison, no number
    from 2^31 up, and is grouped to the left already. *)
Theorem C48_same_partial : forall hx e, printable e = true -> grouped e = true -> settled e = true -> plain e = true -> signed e = e ->
  exists s, fmt hx e 0 = Some s /\ parse_code s = Some [e].
Proof.
  intros hx e P G T L S. destruct (C48_text_partial hx e P G) as (s & F & R). exists s. split; [exact F|].
  rewrite R, (settled_regroup e T), S, (lower_plain e L). reflexivity.
Qed.
(** What the decompiler prints is [simplify] of such an expression; reading it
    gives the expression the decoder had before. *)
Theorem C48_simplified_partial : forall hx e, plain e = true -> printable (simplify e) = true -> grouped (simplify e) = true ->
  settled (simplify e) = true -> signed (simplify e) = simplify e ->
  exists s, fmt hx (simplify e) 0 = Some s /\ parse_code s = Some [e].
Proof.
  intros hx e L P G T S. destruct (C48_text_partial hx (simplify e) P G) as (s & F & R). exists s. split; [exact F|].
  rewrite R, (settled_regroup _ T), S, (C23_reparse_undoes e L). reflexivity.
Qed.
(** The meaning survives if sums and products are all that is regrouped. *)
Theorem C48_meaning_partial : forall (A : Type) (G : game A) ok tab subs hx e, calm tab ->
  printable e = true -> grouped e = true -> harmless e = true ->
  exists s e', fmt hx e 0 = Some s /\ parse_code s = Some [e'] /\ forall st, eval G ok tab subs e' st = eval G ok tab subs e st.
Proof.
  intros A G ok tab subs hx e C P Gr H. destruct (C48_text_partial hx e P Gr) as (s & F & R).
  exists s, (lower (signed (regroup e))). split; [exact F|]. split; [exact R|]. intros st. apply reread_ev; assumption.
Qed.
(** Different expressions have different texts (those read back exactly). *)
Theorem C48_injective_partial : forall hx e e', 
  (printable e && grouped e && settled e && plain e && printable e' && grouped e' && settled e' && plain e') = true ->
  signed e = e -> signed e' = e' -> fmt hx e 0 = fmt hx e' 0 -> e = e'.
Proof.
  intros hx e e' H S S' E. rewrite !andb_true_iff in H. destruct H as [[[[[[[P G] T] L] P'] G'] T'] L'].
  destruct (C48_same_partial hx e P G T L S) as (s & F & R). destruct (C48_same_partial hx e' P' G' T' L' S') as (s' & F' & R').
  rewrite F, F' in E. injection E as ->. congruence.
Qed.

(** The library's variable tables never name the procedure-call variable. *)
Theorem C48_tables_calm : forall f tab, va2_vars f = Some tab -> calm tab.
Proof.
  intros f tab H. unfold va2_vars in H. apply bind_some in H as (t & D & H). apply some_inj in H. subst tab. intros x d Hd.
  assert (C : forallb (fun ft : Z * vtable => forallb (fun kd => negb (vd_var (snd kd) =? 126)) (snd ft)) VA2_VARS = true) by (vm_compute; reflexivity).
  assert (D1 : In (f, t) VA2_VARS).
  { clear - D. induction VA2_VARS as [|[k w] l IH]; cbn [dict_get] in D; [discriminate|]. destruct (f =? k) eqn:E; [apply Z.eqb_eq in E; injection D as ->; subst; now left|right; auto]. }
  rewrite forallb_forall in C. specialize (C _ D1). cbn [snd] in C.
  assert (D2 : exists y, In (y, d) t).
  { clear - Hd. induction t as [|[k w] l IH]; cbn [dict_get] in Hd; [discriminate|]. destruct (bytes_eqb x k); [injection Hd as ->; eexists; now left|].
    destruct (IH Hd) as [y I]. exists y. now right. }
  destruct D2 as [y I]. rewrite forallb_forall in C. specialize (C _ I). cbn [snd] in C. lia.
Qed.

(** C11 through the text: a decompiled switch, printed and compiled again,
    computes the same, provided its expressions are of the kind above. *)
Theorem C11_text_partial : forall (A : Type) (G : game A) tab vinvs vinv sw b d, calls_clean G -> calm tab ->
  Forall (fun e => supported tab e = true) (sw_lines sw) -> switch_data tab sw = Some b -> b = 2 :: d ->
  bytesb d = true -> 0 <= sw_feature sw <= 20 -> vinvs (sw_feature sw) = Some vinv ->
  (forall g, game_parse b = Some g -> clean tab vinv (g_adjusts g)) ->
  exists sw', decode_switch vinvs d = Some sw' /\
    forall hx, forallb printable (sw_lines sw') = true -> forallb grouped (sw_lines sw') = true -> forallb harmless (sw_lines sw') = true ->
    exists text lines, fmt_lines hx (sw_lines sw') = Some text /\ parse_code text = Some lines /\
      forall m v s, eval_lines G user_reg tab (sw_subs sw) (sw_lines sw) 0 (user_of m) = Some (v, s) ->
      exists s', eval_lines G any_reg tab [] lines 0 (user_of m) = Some (v, s') /\
        (forall r, user_reg r = true -> u_tmp s' r = u_tmp s r) /\ (forall r, u_prm s' r = u_prm s r) /\ u_aux s' = u_aux s.
Proof.
  intros A G tab vinvs vinv sw b d C T F H E B Hf V K.
  destruct (C11_roundtrip_partial A G tab vinvs vinv sw b d C F H E B Hf V K) as (sw' & D & _ & _ & _ & _ & X & _).
  exists sw'. split; [exact D|]. intros hx P Gr Hm. destruct (text_reads hx (sw_lines sw') P Gr) as (text & Ft & R).
  exists text, (map (fun e => lower (signed (regroup e))) (sw_lines sw')). split; [exact Ft|]. split; [exact R|].
  intros m v s Hv. destruct (X m v s Hv) as (s' & Y & Z0). exists s'. split; [|exact Z0].
  rewrite reread_lines by assumption. exact Y.
Qed.

(** Examples. *)
Definition ex_e : node :=
  NExpr 0 (NExpr 10 (NVar (nm "a")) (NExpr 1 (NValue 4294967295) (NTemp (NValue 3))))
          (NExpr 1 (NExpr 2 (NGenP 97 4 255 (Some (1, -2, 7)) (NVar (nm "b"))) (NPerm (NVar (nm "c")))) (NExpr 10 (NCall 9) (NExpr (-1) (NVar (nm "d")) (NValue 5)))).
Definition ex_text : bytes := nm "a * (-1 - TEMP[0x03]) + min(var(0x61, param=(b), shift=4, and=0xff, add=-2, div=7), PERM[c]) - call(9) * (d < 5)".
Example C48_example : printable ex_e = true /\ grouped ex_e = true /\ fmt true ex_e 0 = Some ex_text /\
  parse_code ex_text = Some [NExpr 1 (NExpr 0 (NExpr 10 (NVar (nm "a")) (NExpr 1 (NValue (-1)) (NTemp (NValue 3))))
     (NExpr 2 (NGenP 97 4 255 (Some (1, -2, 7)) (NVar (nm "b"))) (NPerm (NVar (nm "c")))))
     (NExpr 10 (NCall 9) (NExpr 13 (NExpr 2 (NExpr 18 (NVar (nm "d")) (NValue 5)) (NValue 1)) (NValue 1)))].
Proof. repeat split; vm_compute; reflexivity. Qed.
Definition ex_h : node := NExpr 0 (NVar (nm "a")) (NExpr 1 (NTemp (NValue 3)) (NExpr 0 (NVar (nm "b")) (NValue 7))).
Example C48_meaning_example : printable ex_h = true /\ grouped ex_h = true /\ harmless ex_h = true /\ settled ex_h = false /\
  fmt false ex_h 0 = Some (nm "a + TEMP[3] - (b + 7)").
Proof. repeat split; vm_compute; reflexivity. Qed.
Example C48_same_example : let e := NExpr 14 (NExpr 11 (NExpr 20 (NVar (nm "a")) (NValue 3)) (NValue 255)) (NValue 16) in
  let e' := NExpr 14 (NExpr 20 (NExpr 11 (NVar (nm "a")) (NValue 255)) (NValue 3)) (NValue 16) in
  grouped e = false /\ printable e' = true /\ grouped e' = true /\ settled e' = true /\ plain e' = true /\ signed e' = e' /\
  fmt true e' 0 = Some (nm "TEMP[0x10] = a & 255 << 3").
Proof. repeat split; vm_compute; reflexivity. Qed.

(** What the restrictions exclude does go wrong. *)
Section Wrong.
Context {A : Type} (G : game A) (ok : Z -> bool) (tab : name -> option vdata) (subs : list (name * sub_ref)) (st : ust A).
Notation val e := (option_map fst (eval G ok tab subs e st)).
(** The left operand of a bitwise operator: (1 | 2) & 4 is 0, its text 1. *)
Theorem C48_bitwise_refuted : exists e s e', printable e = true /\ fmt true e 0 = Some s /\ parse_code s = Some [e'] /\ val e = Some 0 /\ val e' = Some 1.
Proof.
  exists (NExpr 11 (NExpr 12 (NValue 1) (NValue 2)) (NValue 4)). do 2 eexists. split; [reflexivity|]. split; [vm_compute; reflexivity|].
  split; [vm_compute; reflexivity|]. split; vm_compute; reflexivity.
Qed.
(** (1 << 1) | 1 is 3, its text 2. *)
Theorem C48_shift_refuted : exists e s e', printable e = true /\ fmt true e 0 = Some s /\ parse_code s = Some [e'] /\ val e = Some 3 /\ val e' = Some 2.
Proof.
  exists (NExpr 12 (NExpr 20 (NValue 1) (NValue 1)) (NValue 1)). do 2 eexists. split; [reflexivity|]. split; [vm_compute; reflexivity|].
  split; [vm_compute; reflexivity|]. split; vm_compute; reflexivity.
Qed.
(** 2 * (3 / 2) is 2, its text 3. *)
Theorem C48_division_refuted : exists e s e', printable e = true /\ grouped e = true /\ fmt true e 0 = Some s /\ parse_code s = Some [e'] /\ val e = Some 2 /\ val e' = Some 3.
Proof.
  exists (NExpr 10 (NValue 2) (NExpr 6 (NValue 3) (NValue 2))). do 2 eexists. split; [reflexivity|]. split; [reflexivity|]. split; [vm_compute; reflexivity|].
  split; [vm_compute; reflexivity|]. split; vm_compute; reflexivity.
Qed.
(** 5 < (3 < 2) is 0, its text 1. *)
Theorem C48_comparison_refuted : exists e s e', printable e = true /\ grouped e = true /\ fmt true e 0 = Some s /\ parse_code s = Some [e'] /\ val e = Some 0 /\ val e' = Some 1.
Proof.
  exists (NExpr (-1) (NValue 5) (NExpr (-1) (NValue 3) (NValue 2))). do 2 eexists. split; [reflexivity|]. split; [reflexivity|]. split; [vm_compute; reflexivity|].
  split; [vm_compute; reflexivity|]. split; vm_compute; reflexivity.
Qed.
End Wrong.
(** These have a text that is not read. *)
Theorem C48_unread_refuted :
  (forall op, In op [8; 9; -7; -8] -> exists s, fmt true (NExpr op (NVar (nm "a")) (NValue 3)) 0 = Some s /\ parse_code s = None) /\
  (exists s, fmt true (NVarP (nm "a") (NVar (nm "b"))) 0 = Some s /\ parse_code s = None) /\
  (exists s, fmt true (NExpr 14 (NValue 1) (NValue (-1))) 0 = Some s /\ parse_code s = None).
Proof.
  split; [|split].
  - intros op H. cbn in H. repeat (destruct H as [<-|H]; [eexists; split; [vm_compute; reflexivity|vm_compute; reflexivity]|]). contradiction.
  - eexists. split; vm_compute; reflexivity.
  - eexists. split; vm_compute; reflexivity.
Qed.
(** These cannot be printed at all, although the language has a notation for
    both. *)
Theorem C48_unprintable_refuted : forall hx p,
  (forall x e, fmt hx (NAssign x e) p = None) /\ (forall a b, (forall v, b <> NValue v) -> fmt hx (NExpr 14 a b) p = None /\ fmt hx (NExpr 16 a b) p = None) /\
  parse_code (nm "x = a + 1") = Some [NAssign (nm "x") (NExpr 0 (NVar (nm "a")) (NValue 1))].
Proof.
  intros hx p. split; [reflexivity|]. split; [|vm_compute; reflexivity].
  intros a b N. cbn [fmt operators]. destruct (fmt hx a (2 - 1)); [|split; reflexivity]. cbn [bind].
  destruct b as [| |v| | | | | | | |]; try (split; reflexivity). exfalso. exact (N v eq_refl).
Qed.
(** Adjustments of type 3 and of numbers other than 1 and 2 are left out of the
    text. *)
Theorem C48_adjust_refuted : exists e s, fmt true e 0 = Some s /\ exists e', parse_code s = Some [e'] /\ e' <> e.
Proof.
  exists (NGen 64 0 255 (Some (3, 1, 2))). eexists. split; [vm_compute; reflexivity|]. eexists. split; [vm_compute; reflexivity|]. discriminate.
Qed.

Print Assumptions C48_text_partial.
Print Assumptions C48_lines_partial.
Print Assumptions C48_same_partial.
Print Assumptions C48_simplified_partial.
Print Assumptions C48_meaning_partial.
Print Assumptions C48_injective_partial.
Print Assumptions C48_tables_calm.
Print Assumptions C11_text_partial.
