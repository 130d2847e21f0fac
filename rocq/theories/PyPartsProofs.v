(** Reading the parts of the printed texts: dicts of _py_dict, climates,
    hexadecimal offsets, code, comments. *)
From Coq Require Import ZArith List Bool Lia String.
From Verif Require Import Base BaseFacts CommonModel DecodeModel ParserModel GenPyModel PyValue SpecPython PyTextModel SpecPyText PyReadProofs PyIndentProofs PyStripProofs LexProofs.
Import ListNotations.
Open Scope Z_scope.

Lemma skips_app a b : skips a -> skips b -> skips (a ++ b).
Proof. intros A B t. rewrite <- app_assoc, A, B. reflexivity. Qed.
Lemma skips_blank n : skips (10 :: repeat 32 n).
Proof. intros t. cbn [app]. rewrite ws_nl. induction n as [|n IH]; [reflexivity|exact IH]. Qed.
Lemma skips_spaces n : skips (repeat 32 n).
Proof. intros t. induction n as [|n IH]; [reflexivity|exact IH]. Qed.

(** ** Dicts of _py_dict *)
Definition dict_line (e : bytes * bytes) : bytes := 10 :: repeat 32 12 ++ txt "    " ++ fst e ++ txt ": " ++ snd e ++ [44].
Lemma entries_lines rest : forall (l : list ((bytes * py) * (bytes * py))) n,
  Forall (fun e => reads true (fst (fst e)) (snd (fst e)) /\ reads true (fst (snd e)) (snd (snd e))) l ->
  let text := flat_map dict_line (map (fun e => (fst (fst e), fst (snd e))) l) in
  (6 * List.length text + 2 <= n)%nat ->
  entries n (text ++ 10 :: repeat 32 12 ++ 125 :: rest) = Some (map (fun e => (snd (fst e), snd (snd e))) l, rest).
Proof.
  induction l as [|[[s k] [sv v]] l IH]; intros n F text L.
  - destruct n as [|n]; [cbn in L; lia|]. reflexivity.
  - inversion F as [|? ? [F1 F2] Fl]; subst. cbn [fst snd] in F1, F2. unfold text in *. clear text.
    cbn [map flat_map fst snd] in L |- *. set (more := flat_map dict_line (map (fun e => (fst (fst e), fst (snd e))) l)) in *.
    assert (E : dict_line (s, sv) ++ more = ((10 :: repeat 32 16) ++ s) ++ 58 :: (32 :: sv) ++ 44 :: more).
    { unfold dict_line. cbn [fst snd]. change (txt "    ") with [32; 32; 32; 32]. change (txt ": ") with [58; 32]. rewrite <- !app_assoc. cbn [app repeat]. rewrite <- ?app_assoc. cbn [app]. rewrite <- ?app_assoc. reflexivity. }
    rewrite E in L |- *. rewrite !app_length in L. cbn [List.length] in L. rewrite ?app_length in L. cbn [List.length] in L. rewrite ?repeat_length in L.
    rewrite <- !app_assoc. cbn [app]. destruct n as [|n]; [lia|].
    pose proof (reads_pre [32] sv v skips_space F2) as F2'.
    pose proof (reads_pre (10 :: repeat 32 16) s k (skips_blank 16) F1) as F1'.
    set (t := 44 :: more ++ 10 :: repeat 32 12 ++ 125 :: rest).
    destruct (closing_stops true 44 (more ++ 10 :: repeat 32 12 ++ 125 :: rest) eq_refl) as [S B]. fold t in S, B.
    match goal with |- entries _ ?x = _ => replace x with (((10 :: repeat 32 16) ++ s) ++ 58 :: (32 :: sv) ++ t) end.
    + rewrite (entries_step n ((10 :: repeat 32 16) ++ s) k (32 :: sv) v t F1' F2') by (assumption || (rewrite ?app_length; cbn [List.length]; rewrite ?repeat_length; lia)).
      unfold t. rewrite ws_closing by reflexivity. unfold more. rewrite IH by (assumption || (fold more; lia)). reflexivity.
    + rewrite <- !app_assoc. cbn [app]. unfold t. rewrite <- ?app_assoc. cbn [app]. reflexivity.
Qed.
Definition solid_first (s : bytes) : Prop := match s with c :: _ => spaceb c = false | [] => False end.
Lemma good_py_dict (l : list ((bytes * py) * (bytes * py))) :
  Forall (fun e => reads true (fst (fst e)) (snd (fst e)) /\ reads true (fst (snd e)) (snd (snd e))) l ->
  Forall (fun e => solid_first (fst (fst e))) l ->
  good_text (py_dict (map (fun e => (fst (fst e), fst (snd e))) l)) (YDict (map (fun e => (snd (fst e), snd (snd e))) l)).
Proof.
  intros F SF. assert (NIL : l = [] \/ l <> []) by (destruct l; [left; reflexivity|right; discriminate]).
  destruct NIL as [-> | NE].
  - change (good_text [123; 125] (YDict [])). exact (good_dict [] (Forall_nil _)).
  - unfold py_dict. fold dict_line. change (flat_map (fun e => 10 :: repeat 32 12 ++ txt "    " ++ fst e ++ txt ": " ++ snd e ++ [44])) with (flat_map dict_line).
    set (res := flat_map dict_line (map (fun e => (fst (fst e), fst (snd e))) l)).
    assert (R : exists r, res = 10 :: r) by (destruct l as [|e l]; [congruence|]; unfold res; cbn [map flat_map]; unfold dict_line at 1; cbn [app]; eexists; reflexivity).
    destruct R as [r R]. rewrite R. destruct (existsb (Z.eqb 10) r) eqn:NL.
    + rewrite <- R. split.
      * intros deep n rest S L. cbn [app]. rewrite <- app_assoc. cbn [app]. rewrite <- app_assoc. cbn [app].
        cbn [List.length] in L. rewrite !app_length in L. cbn [List.length] in L. rewrite app_length, repeat_length in L. cbn [List.length] in L.
        destruct n as [|[|n]]; [lia..|]. rewrite unary_atom by (reflexivity || discriminate). cbn [atom].
        change (123 =? 40) with false. change (123 =? 91) with false. change (123 =? 123) with true. cbv iota.
        unfold res. rewrite entries_lines; [reflexivity|exact F|fold res; lia].
      * intros t S B. apply positional_nonletter; reflexivity.
    + (* one entry on one line *)
      destruct l as [|[[s k] [sv v]] [|e2 l]]; [congruence| |].
      * rewrite <- R. unfold res. cbn [map flat_map fst snd]. rewrite app_nil_r. unfold dict_line. cbn [fst snd].
        inversion SF as [|? ? SF1 _]; subst. cbn [fst snd] in SF1.
        assert (E : removelast (10 :: repeat 32 12 ++ txt "    " ++ s ++ txt ": " ++ sv ++ [44]) = (10 :: repeat 32 16) ++ s ++ txt ": " ++ sv).
        { replace (10 :: repeat 32 12 ++ txt "    " ++ s ++ txt ": " ++ sv ++ [44]) with (((10 :: repeat 32 16) ++ s ++ txt ": " ++ sv) ++ [44]) by (rewrite <- !app_assoc; reflexivity).
          apply removelast_last. }
        rewrite E, lstrip_app. change (blankb (10 :: repeat 32 16)) with true. cbv iota.
        assert (E2 : lstrip (s ++ txt ": " ++ sv) = s ++ txt ": " ++ sv) by (destruct s as [|c s]; [destruct SF1|]; cbn [app lstrip]; unfold solid_first in SF1; rewrite SF1; reflexivity).
        rewrite E2. exact (good_dict [((s, k), (sv, v))] F).
      * exfalso. assert (X : existsb (Z.eqb 10) r = true).
        { apply existsb_exists. exists 10. split; [|reflexivity]. unfold res in R. cbn [map flat_map] in R.
          set (a := dict_line (fst (fst ((s, k), (sv, v))), fst (snd ((s, k), (sv, v))))) in R. set (b := dict_line (fst (fst e2), fst (snd e2))) in R.
          assert (A : exists a', a = 10 :: a') by (eexists; reflexivity). assert (B : exists b', b = 10 :: b') by (eexists; reflexivity).
          destruct A as [a' A]. destruct B as [b' B]. rewrite A, B in R. cbn [app] in R. injection R as <-. apply in_or_app. right. left. reflexivity. }
        rewrite X in NL. discriminate.
Qed.

(** ** Climates *)
Lemma alternatives_all deep rest : stops deep rest -> nobar deep rest -> forall (l : list (bytes * py)) a n,
  Forall (fun e => ureads deep (32 :: fst e) (snd e)) l ->
  (6 * List.length (flat_map (fun e => txt " | " ++ fst e) l) + 1 <= n)%nat ->
  alternatives n deep a (flat_map (fun e => txt " | " ++ fst e) l ++ rest) = Some (fold_left YOr (map snd l) a, rest).
Proof.
  intros S B. induction l as [|[s v] l IH]; intros a n F L.
  - cbn [flat_map app map fold_left]. destruct n as [|n]; [lia|]. apply alternatives_stop. exact B.
  - inversion F as [|? ? F1 F2]; subst. cbn [fst snd] in F1. cbn [flat_map fst snd map fold_left] in L |- *. change (txt " | ") with [32; 124; 32] in L |- *.
    rewrite !app_length in L. cbn [List.length] in L. destruct n as [|n]; [lia|].
    rewrite <- !app_assoc. cbn [alternatives].
    match goal with |- context [ws deep ?x] => change (ws deep x) with (124 :: (32 :: s) ++ flat_map (fun e => txt " | " ++ fst e) l ++ rest) end. cbv iota.
    rewrite F1.
    + cbn [bind]. apply IH; [exact F2|]. change (txt " | ") with [32; 124; 32]. lia.
    + destruct l as [|e l]; [exact S|]. cbn [flat_map]. change (txt " | ") with [32; 124; 32]. cbn [app]. reflexivity.
    + cbn [List.length]. lia.
Qed.
Lemma ureads_space deep s v : ureads deep s v -> ureads deep (32 :: s) v.
Proof. intros H n rest S L. cbn [List.length] in L. rewrite <- (H n rest S) by lia. destruct n; reflexivity. Qed.
Lemma joins_flat sep a l : joins sep (a :: l) = a ++ flat_map (fun x => sep ++ x) l.
Proof.
  revert a. induction l as [|b l IH]; intros a; [symmetry; apply app_nil_r|].
  change (joins sep (a :: b :: l)) with (a ++ sep ++ joins sep (b :: l)). rewrite IH. cbn [flat_map]. rewrite <- app_assoc. reflexivity.
Qed.
Lemma climate_good x : good_name (txt x) = true -> good_text (repr (climate x)) (climate x).
Proof. intros G. apply repr_good. cbn [climate wfp head_ok]. rewrite G. reflexivity. Qed.
(** The value printed by ClimateProperty.format. *)
Definition climates_of (v : Z) : list string :=
  map snd (filter (fun e => 0 <? Z.land (fst e) v) [(1, "TEMPERATE"%string); (2, "ARCTIC"%string); (4, "TROPICAL"%string); (8, "TOYLAND"%string)]).
Definition climate_py (v : Z) : py :=
  if v =? 0 then climate "NO_CLIMATE" else if v =? 15 then climate "ALL_CLIMATES"
  else if negb ((0 <? v) && (v <? 15)) then YInt v
  else match climates_of v with x :: l => fold_left YOr (map climate l) (climate x) | [] => YNone end.
Lemma climate_some v : 0 < v < 15 -> exists x l, climates_of v = x :: l /\ Forall (fun x => good_name (txt x) = true) (x :: l).
Proof.
  intros H. assert (E : v = 1 \/ v = 2 \/ v = 3 \/ v = 4 \/ v = 5 \/ v = 6 \/ v = 7 \/ v = 8 \/ v = 9 \/ v = 10 \/ v = 11 \/ v = 12 \/ v = 13 \/ v = 14) by lia.
  repeat (destruct E as [-> | E]; [eexists _, _; split; [reflexivity|repeat constructor]|]). subst v. eexists _, _; split; [reflexivity|repeat constructor].
Qed.
Lemma climate_reads v : reads true (climate_text v) (climate_py v).
Proof.
  unfold climate_text, climate_py. destruct (v =? 0); [apply good_reads, climate_good; reflexivity|]. destruct (v =? 15); [apply good_reads, climate_good; reflexivity|].
  destruct ((0 <? v) && (v <? 15)) eqn:R; cbn [negb]; [|apply good_reads, repr_good; reflexivity].
  destruct (climate_some v ltac:(lia)) as (x & l & E & G).
  assert (T : map (fun e : Z * string => repr (climate (snd e))) (filter (fun e => 0 <? Z.land (fst e) v) [(1, "TEMPERATE"%string); (2, "ARCTIC"%string); (4, "TROPICAL"%string); (8, "TOYLAND"%string)])
              = map (fun x => repr (climate x)) (x :: l)).
  { rewrite <- E. unfold climates_of. rewrite map_map. reflexivity. }
  rewrite T, E. cbn [map]. rewrite joins_flat. inversion G as [|? ? G1 G2]; subst.
  intros n rest S B L. rewrite <- app_assoc. rewrite app_length in L.
  pose proof (proj1 (climate_good x G1)) as U. pose proof (ureads_len _ _ _ (U true)) as UL. destruct n as [|n]; [lia|]. cbn [SpecPython.expr].
  assert (FM : flat_map (fun y => txt " | " ++ y) (map (fun x => repr (climate x)) l) = flat_map (fun e => txt " | " ++ fst e) (map (fun x => (repr (climate x), climate x)) l)).
  { clear. induction l as [|a l IH]; [reflexivity|]. cbn [map flat_map fst]. rewrite IH. reflexivity. }
  rewrite FM in L |- *. rewrite U.
  - cbn [bind]. rewrite alternatives_all; [rewrite map_map; reflexivity|exact S|exact B| |lia].
    apply Forall_map. rewrite Forall_forall in G2 |- *. intros y I. cbn [fst snd]. apply ureads_space. exact (proj1 (climate_good y (G2 y I)) true).
  - destruct l as [|y l]; [exact S|]. cbn [map flat_map fst]. change (txt " | ") with [32; 124; 32]. reflexivity.
  - lia.
Qed.

(** ** Hexadecimal numbers *)
Lemma hex_app : forall l acc r, Forall (fun d => exists v, hexval d = Some v) l -> match r with [] => True | c :: _ => hexval c = None end ->
  hex acc (l ++ r) = (fst (hex acc l), r) /\ snd (hex acc l) = [].
Proof.
  induction l as [|c l IH]; intros acc r F R.
  - destruct r as [|c r]; [split; reflexivity|]. cbn. rewrite R. split; reflexivity.
  - inversion F as [|? ? [v Hv] Fl]; subst. cbn [app hex]. rewrite Hv. apply IH; assumption.
Qed.
Lemma hex_snoc : forall l acc d, Forall (fun c => exists v, hexval c = Some v) l -> 0 <= d < 16 ->
  hex acc (l ++ [hex_digit d]) = (16 * fst (hex acc l) + d, []).
Proof.
  induction l as [|c l IH]; intros acc d F D.
  - cbn [app hex fst]. rewrite (hexval_digit d D). reflexivity.
  - inversion F as [|? ? [v Hv] Fl]; subst. cbn [app hex]. rewrite Hv. apply IH; assumption.
Qed.
Lemma hex_digits_hex : forall fuel n, 0 <= n < Z.of_nat fuel ->
  Forall (fun c => exists v, hexval c = Some v) (hex_digits fuel n) /\ hex 0 (hex_digits fuel n) = (n, []).
Proof.
  induction fuel as [|fuel IH]; intros n H; [lia|]. cbn [hex_digits]. destruct (Z.ltb_spec n 16).
  - split; [constructor; [exists n; apply hexval_digit; lia|constructor]|]. cbn [hex]. rewrite hexval_digit by lia. reflexivity.
  - assert (D : 0 <= n / 16 < Z.of_nat fuel) by (Z.to_euclidean_division_equations; lia).
    assert (M : 0 <= n mod 16 < 16) by (apply Z.mod_pos_bound; lia).
    destruct (IH _ D) as [F V]. split; [apply Forall_app; split; [exact F|constructor; [exists (n mod 16); apply hexval_digit; lia|constructor]]|].
    rewrite hex_snoc by assumption. rewrite V. cbn [fst]. f_equal. pose proof (Z.div_mod n 16). lia.
Qed.
Lemma hex_zeros k : forall l, hex 0 (repeat 48 k ++ l) = hex 0 l.
Proof. induction k as [|k IH]; intros l; [reflexivity|]. cbn [repeat app]. cbn [hex]. change (hexval 48) with (Some 0). apply IH. Qed.
Lemma fmt_04x_good n : 0 <= n -> good_text (txt "0x" ++ fmt_04x n) (YInt n).
Proof.
  intros H. destruct (hex_digits_hex (S (Z.to_nat n)) n ltac:(lia)) as [F V]. fold (hex_nat n) in F, V.
  assert (F' : Forall (fun c => exists v, hexval c = Some v) (fmt_04x n)).
  { unfold fmt_04x. apply Forall_app. split; [|exact F]. apply Forall_forall. intros c I. apply repeat_spec in I. subst c. exists 0. reflexivity. }
  assert (V' : hex 0 (fmt_04x n) = (n, [])) by (unfold fmt_04x; rewrite hex_zeros; exact V).
  apply good_number; [|exists 48, (120 :: fmt_04x n); split; reflexivity].
  intros r E. change (txt "0x") with [48; 120]. cbn [app].
  assert (R : match r with [] => True | c :: _ => hexval c = None end).
  { destruct r as [|c r]; [exact I|]. cbn [number_end] in E. unfold hexval. destruct (digitb c) eqn:D; [exfalso; unfold identb in E; rewrite D, orb_true_r in E; discriminate|]. assert (L : (97 <=? c) && (c <=? 102) = false /\ (65 <=? c) && (c <=? 70) = false) by (unfold identb, letterb, digitb in E; lia). destruct L as [-> ->]. reflexivity. }
  destruct (hex_app (fmt_04x n) 0 r F' R) as [X _]. rewrite V' in X. cbn [fst] in X.
  destruct (fmt_04x n) as [|h t] eqn:Q.
  - exfalso. unfold fmt_04x in Q. destruct (LexProofs.hex_digits_ok (S (Z.to_nat n)) n ltac:(lia)) as (_ & _ & C). apply app_eq_nil in Q. apply C. apply Q.
  - inversion F' as [|? ? [v Hv] _]; subst. cbn [number app]. rewrite Hv. change (h :: t ++ r) with ((h :: t) ++ r). rewrite X, E. reflexivity.
Qed.

(** ** Comments *)
Lemma skip_comment c t : ~ In 10 c -> skip true true (c ++ 10 :: t) = ws true t.
Proof.
  induction c as [|a c IH]; intros N; [reflexivity|]. cbn [app skip].
  destruct (Z.eqb_spec a 10) as [-> | _]; [exfalso; apply N; left; reflexivity|]. apply IH. intros J. apply N. right. exact J.
Qed.
Lemma skips_comment c n : ~ In 10 c -> skips ((txt "  # " ++ c) ++ 10 :: repeat 32 n).
Proof.
  intros N t. rewrite <- !app_assoc. cbn [app]. change (txt "  # ") with [32; 32; 35; 32]. cbn [app].
  unfold ws. cbn [skip Z.eqb Pos.eqb]. rewrite skip_comment by exact N. apply skips_spaces.
Qed.

(** ** Code *)
Definition codec (c : Z) : bool := codeb c.
Lemma quoted_code s r : forallb codec s = true -> quoted 39 true (s ++ txt "'''" ++ r) = Some (s, r).
Proof.
  induction s as [|c s IH]; intros H; [reflexivity|]. cbn [forallb] in H. apply andb_prop in H as [C S].
  cbn [app quoted]. rewrite IH by exact S.
  assert (A : (c =? 92) = false) by (unfold codec, codeb in C; lia). assert (B : (c =? 39) = false) by (unfold codec, codeb in C; lia).
  assert (D : (c =? 10) && negb true = false) by lia. assert (E : (c <? 32) && negb (c =? 10) = false) by (unfold codec, codeb in C; lia).
  rewrite A, B, D, E. reflexivity.
Qed.
Lemma code_good s : forallb codec s = true -> good_text (txt "'''" ++ s ++ txt "'''") (YText s).
Proof.
  intros H. split.
  - intros deep n rest S L. rewrite <- !app_assoc. change (txt "'''" ++ s ++ txt "'''" ++ rest) with (39 :: 39 :: 39 :: s ++ txt "'''" ++ rest).
    rewrite !app_length in L. change (List.length (txt "'''")) with 3%nat in L. destruct n as [|[|n]]; [lia..|].
    rewrite unary_atom by (reflexivity || lia). cbn [atom Z.eqb Pos.eqb]. change (digitb 39) with false. change (quoteb 39) with true. cbv iota.
    cbn [triple_literal]. change (quoteb 39 && opens_triple 39 (39 :: 39 :: s ++ txt "'''" ++ rest)) with true. cbv iota. cbn [skipn].
    rewrite quoted_code by exact H. cbv iota.
    assert (T : text_literal (ws deep rest) = None /\ triple_literal (ws deep rest) = None).
    { unfold stops in S. destruct (ws deep rest) as [|c r]; [split; reflexivity|].
      destruct (stopc_cases c S) as [-> | [-> | [-> | [-> | [-> | [-> | ->]]]]]]; split; reflexivity. }
    destruct T as [-> ->]. reflexivity.
  - intros t _ _. apply positional_nonletter; reflexivity.
Qed.
