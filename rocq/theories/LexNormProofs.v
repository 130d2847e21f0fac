(** Indentation of the lines of a code does not change what it parses to. *)
From Coq Require Import ZArith List Bool Lia String.
From Verif Require Import Base BaseFacts CommonModel RecordsModel VA2Model VA2Vars ParserModel PyIndentProofs.
Import ListNotations.
Open Scope Z_scope.

(** Newlines that follow one another are one. *)
Fixpoint dd (ts : list token) : list token :=
  match ts with
  | [] => []
  | TNewline :: r => match dd r with TNewline :: q => TNewline :: q | q => TNewline :: q end
  | t :: r => t :: dd r
  end.
Lemma dd_cons t a b : dd a = dd b -> dd (t :: a) = dd (t :: b).
Proof. intros E. destruct t; cbn [dd]; rewrite E; reflexivity. Qed.
Lemma dd_app p a b : dd a = dd b -> dd (p ++ a) = dd (p ++ b).
Proof. intros E. induction p as [|t p IH]; [exact E|]. cbn [app]. apply dd_cons, IH. Qed.
Lemma dd_twice r : dd (TNewline :: TNewline :: r) = dd (TNewline :: r).
Proof. cbn [dd]. destruct (dd r) as [|[] q]; reflexivity. Qed.

Lemma lex_break st c r : continue st c = None -> lex st (c :: r) = flush st ++ lex LNone (c :: r).
Proof. intros H. cbn [lex]. rewrite H. reflexivity. Qed.
Lemma continue_space st : continue st 32 = None. Proof. destruct st; reflexivity. Qed.
Lemma lex_space st r : lex st (32 :: r) = flush st ++ lex LNone r.
Proof. rewrite lex_break by apply continue_space. reflexivity. Qed.

(** At most the first character matters of what follows a token. *)
Definition lex_ok (s : bytes) : Prop :=
  (forall st, dd (lex st (norm false s)) = dd (lex st s)) /\
  dd (lex LNewl (norm true s)) = dd (lex LNewl s) /\ dd (lex LNewl (norm true s)) = dd (TNewline :: lex LNone s).
Lemma lex_newl_head : forall r, exists q, lex LNewl r = TNewline :: q.
Proof.
  induction r as [|c r IH]; [exists []; reflexivity|]. destruct (Z.eqb_spec c 10) as [-> | N].
  - exact IH.
  - rewrite lex_break; [|cbn [continue]; destruct (Z.eqb_spec c 10); [contradiction|reflexivity]]. eexists. reflexivity.
Qed.
(** What a token reads after its first character. *)
Definition after (c : Z) (r : bytes) : list token :=
  if is_digit c then
         match r with
         | x :: ((h :: _) as r') =>
           if (c =? 48) && (x =? 120) && is_hex h then lex (LHex 0) r'
           else if (c =? 48) && (x =? 98) && is_bin h then lex (LBin 0) r'
           else lex (LDec (c - 48)) r
         | _ => lex (LDec (c - 48)) r
         end
  else if is_alpha c then lex (LName [c]) r
  else lex LNone (c :: r).
Lemma lex_after c r : lex LNone (c :: r) = after c r.
Proof. unfold after. destruct (is_digit c) eqn:D; [|destruct (is_alpha c) eqn:A; [|reflexivity]]; cbn [lex continue flush app]; rewrite ?D, ?A; reflexivity. Qed.
Lemma norm_cases2 r : (exists q, r = 10 :: q /\ norm false r = 10 :: norm true q) \/ r = [] \/ (exists x q, r = x :: q /\ x <> 10 /\ norm false r = x :: norm false q).
Proof. destruct r as [|x q]; [auto|]. destruct (Z.eqb_spec x 10) as [-> | N]; [left; exists q; split; reflexivity|]. right. right. exists x, q. repeat split; [exact N|]. apply norm_false_cons. apply Z.eqb_neq, N. Qed.

(** Operators: one character, perhaps followed by one or two more. *)
Lemma op_plain c : is_digit c = false -> is_alpha c = false -> c <> 10 -> c <> 43 -> c <> 62 -> c <> 60 -> c <> 61 -> c <> 33 ->
  exists k, forall r, lex LNone (c :: r) = k ++ lex LNone r.
Proof.
  intros D A N N1 N2 N3 N4 N5. cbn [lex continue flush app]. rewrite D, A. destruct (Z.eqb_spec c 10) as [X | _]; [contradiction|].
  assert (G : exists k, forall r, lex LNone r = k ++ lex LNone r) by (exists []; reflexivity).
  assert (T : forall t, exists k, forall r, t :: lex LNone r = k ++ lex LNone r) by (intros t; exists [t]; reflexivity).
  destruct c as [|p|p]; try exact G. repeat (destruct p as [p|p|]; try exact G; try (exfalso; lia); try apply T).
Qed.
Definition pick (r : bytes) (x : Z) (a : bytes -> list token) (d : list token) : list token :=
  match r with y :: q => if y =? x then a q else d | [] => d end.
Lemma lex_62 r : lex LNone (62 :: r) = pick r 62 (fun q => TOp OP_SHR :: lex LNone q) (pick r 61 (fun q => TOp OPE_GE :: lex LNone q) (TOp OPE_GT :: lex LNone r)).
Proof.
  destruct r as [|y q]; [reflexivity|]. unfold pick. destruct (Z.eqb_spec y 62) as [-> | N1]; [reflexivity|]. destruct (Z.eqb_spec y 61) as [-> | N2]; [reflexivity|].
  cbn [lex continue flush app is_digit is_alpha Z.eqb]. destruct y as [|p|p]; try reflexivity. repeat (destruct p as [p|p|]; try reflexivity); exfalso; lia.
Qed.
Lemma lex_60 r : lex LNone (60 :: r) = pick r 60 (fun q => TOp OP_SHL :: lex LNone q) (pick r 61 (fun q => TOp OPE_LE :: lex LNone q) (TOp OPE_LT :: lex LNone r)).
Proof.
  destruct r as [|y q]; [reflexivity|]. unfold pick. destruct (Z.eqb_spec y 60) as [-> | N1]; [reflexivity|]. destruct (Z.eqb_spec y 61) as [-> | N2]; [reflexivity|].
  destruct y as [|p|p]; try reflexivity. repeat (destruct p as [p|p|]; try reflexivity); exfalso; lia.
Qed.
Lemma lex_61 r : lex LNone (61 :: r) = pick r 61 (fun q => TOp OPE_EQ :: lex LNone q) (TAssign :: lex LNone r).
Proof.
  destruct r as [|y q]; [reflexivity|]. unfold pick. destruct (Z.eqb_spec y 61) as [-> | N2]; [reflexivity|].
  destruct y as [|p|p]; try reflexivity. repeat (destruct p as [p|p|]; try reflexivity); exfalso; lia.
Qed.
Lemma lex_33 r : lex LNone (33 :: r) = pick r 61 (fun q => TOp OPE_NEQ :: lex LNone q) (lex LNone r).
Proof.
  destruct r as [|y q]; [reflexivity|]. unfold pick. destruct (Z.eqb_spec y 61) as [-> | N2]; [reflexivity|].
  destruct y as [|p|p]; try reflexivity. repeat (destruct p as [p|p|]; try reflexivity); exfalso; lia.
Qed.
Lemma lex_43 r : lex LNone (43 :: r) = pick r 62 (fun q => pick q 62 (fun q => TOp OP_SHRU :: lex LNone q) (TOp OP_ADD :: lex LNone r)) (TOp OP_ADD :: lex LNone r).
Proof.
  destruct r as [|y q]; [reflexivity|]. unfold pick. destruct (Z.eqb_spec y 62) as [-> | N2].
  - destruct q as [|y q]; [reflexivity|]. destruct (Z.eqb_spec y 62) as [-> | N2]; [reflexivity|].
    destruct y as [|p|p]; try reflexivity. repeat (destruct p as [p|p|]; try reflexivity); exfalso; lia.
  - destruct y as [|p|p]; try reflexivity. repeat (destruct p as [p|p|]; try reflexivity); exfalso; lia.
Qed.
Lemma pick_norm r x a b d e : x <> 10 -> (forall q, (List.length q < List.length r)%nat -> dd (a (norm false q)) = dd (b q)) -> dd d = dd e ->
  dd (pick (norm false r) x a d) = dd (pick r x b e).
Proof.
  intros N A D. destruct (norm_cases2 r) as [(q & -> & ->) | [-> | (y & q & -> & Y & ->)]]; cbn [pick].
  - destruct (Z.eqb_spec 10 x); [lia|exact D].
  - exact D.
  - destruct (y =? x); [apply A; cbn; lia|exact D].
Qed.
Lemma lex_step n : (forall s, (List.length s < n)%nat -> lex_ok s) -> forall s, (List.length s < S n)%nat -> lex_ok s.
Proof.
  intros IH s L. destruct s as [|c r]; [repeat split|]. cbn [List.length] in L. assert (OK : forall q, (List.length q <= List.length r)%nat -> lex_ok q) by (intros; apply IH; lia).
  assert (R : forall st, dd (lex st (norm false r)) = dd (lex st r)) by (apply (OK r); lia).
  assert (AFTER : c <> 10 -> dd (lex LNone (c :: norm false r)) = dd (lex LNone (c :: r))).
  { intros N. rewrite !lex_after. unfold after. destruct (is_digit c) eqn:D.
    - destruct (norm_cases2 r) as [(q & -> & E) | [-> | (x & q & -> & X & E)]]; [|reflexivity|].
      + specialize (R (LDec (c - 48))). rewrite E in R |- *.
        assert (G : forall h (t : bytes), (c =? 48) && (10 =? 120) && is_hex h = false /\ (c =? 48) && (10 =? 98) && is_bin h = false) by (intros; split; rewrite andb_false_r; reflexivity).
        destruct (norm true q) as [|h t]; destruct q as [|h' t']; try exact R; try (destruct (G h t) as [-> ->]); try (destruct (G h' t') as [-> ->]); exact R.
      + pose proof (R (LDec (c - 48))) as R'. rewrite E in R' |- *.
        destruct (norm_cases2 q) as [(q2 & -> & E2) | [-> | (h & q2 & -> & H & E2)]]; [|exact R'|].
        * rewrite E2 in R' |- *. change (is_hex 10) with false. change (is_bin 10) with false. rewrite !andb_false_r. exact R'.
        * assert (Q : forall st, dd (lex st (norm false (h :: q2))) = dd (lex st (h :: q2))) by (apply (OK (h :: q2)); cbn; lia).
          rewrite E2 in R', Q |- *. destruct ((c =? 48) && (x =? 120) && is_hex h); [apply Q|]. destruct ((c =? 48) && (x =? 98) && is_bin h); [apply Q|exact R'].
    - destruct (is_alpha c) eqn:A; [apply R|].
      assert (Q : forall q, (List.length q < List.length r)%nat -> forall t, dd (t :: lex LNone (norm false q)) = dd (t :: lex LNone q)).
      { intros q LQ t. apply dd_cons. apply (OK q). lia. }
      assert (RT : forall t, dd (t :: lex LNone (norm false r)) = dd (t :: lex LNone r)) by (intros t; apply dd_cons, R).
      destruct (Z.eq_dec c 43) as [-> | N1].
      { rewrite !lex_43. apply pick_norm; [lia| |apply RT]. intros q LQ. apply pick_norm; [lia| |apply RT]. intros q' LQ'. apply Q. lia. }
      destruct (Z.eq_dec c 62) as [-> | N2].
      { rewrite !lex_62. apply pick_norm; [lia|intros q LQ; apply Q, LQ|]. apply pick_norm; [lia|intros q LQ; apply Q, LQ|apply RT]. }
      destruct (Z.eq_dec c 60) as [-> | N3].
      { rewrite !lex_60. apply pick_norm; [lia|intros q LQ; apply Q, LQ|]. apply pick_norm; [lia|intros q LQ; apply Q, LQ|apply RT]. }
      destruct (Z.eq_dec c 61) as [-> | N4].
      { rewrite !lex_61. apply pick_norm; [lia|intros q LQ; apply Q, LQ|apply RT]. }
      destruct (Z.eq_dec c 33) as [-> | N5].
      { rewrite !lex_33. apply pick_norm; [lia|intros q LQ; apply Q, LQ|apply R]. }
      destruct (op_plain c D A N N1 N2 N3 N4 N5) as [k K]. rewrite !K. apply dd_app, R. }
  destruct (OK r ltac:(lia)) as (_ & R2 & R3).
  assert (P1 : forall st, dd (lex st (norm false (c :: r))) = dd (lex st (c :: r))).
  { intros st. destruct (Z.eqb_spec c 10) as [-> | N].
    - change (norm false (10 :: r)) with (10 :: norm true r). destruct (continue st 10) as [st'|] eqn:C.
      + assert (st' = LNewl) by (destruct st; cbn in C; congruence). subst st'. cbn [lex]. rewrite C. exact R2.
      + rewrite !(lex_break st) by exact C. apply dd_app. exact R2.
    - rewrite norm_false_cons by (apply Z.eqb_neq, N). destruct (continue st c) as [st'|] eqn:C.
      + cbn [lex]. rewrite C. apply R.
      + rewrite !(lex_break st) by exact C. apply dd_app, AFTER, N. }
  split; [exact P1|]. destruct (Z.eqb_spec c 10) as [-> | N].
  - change (lex LNewl (norm true (10 :: r))) with (lex LNewl (norm true r)). split; [exact R2|].
    change (lex LNone (10 :: r)) with (lex LNewl r). rewrite R2. destruct (lex_newl_head r) as [q ->]. symmetry. apply dd_twice.
  - destruct (Z.eqb_spec c 32) as [-> | N2].
    + change (norm true (32 :: r)) with (norm true r). rewrite lex_space. split; exact R3.
    + assert (E : norm true (c :: r) = norm false (c :: r)).
      { cbn [norm]. destruct (Z.eqb_spec c 10); [contradiction|]. destruct (Z.eqb_spec c 32); [contradiction|]. reflexivity. }
      rewrite E. split; [apply P1|]. rewrite P1. rewrite lex_break; [reflexivity|]. cbn [continue]. destruct (Z.eqb_spec c 10); [contradiction|reflexivity].
Qed.
Theorem lex_norm s : dd (lex LNone (norm false s)) = dd (lex LNone s).
Proof.
  assert (G : forall n s, (List.length s < n)%nat -> lex_ok s) by (induction n as [|n IH]; [intros; lia|apply lex_step, IH]).
  apply (G (S (List.length s))). lia.
Qed.

(** ** The parser *)
Lemma dd_length ts : (List.length (dd ts) <= List.length ts)%nat.
Proof. induction ts as [|t r IH]; [reflexivity|]. destruct t; cbn [dd List.length]; try lia. destruct (dd r) as [|[] q]; cbn [List.length] in *; lia. Qed.
Lemma parse_newline r acc : parse (dd (TNewline :: r)) [] None acc = parse (dd r) [] None acc.
Proof. cbn [dd]. destruct (dd r) as [|[] q]; reflexivity. Qed.
(** Nothing but a newline or an end comes first where the tokens begin so. *)
Definition nonnl (t : token) : bool := match t with TNewline => false | _ => true end.
Lemma dd_nonnl t r : nonnl t = true -> dd (t :: r) = t :: dd r.
Proof. destruct t; try reflexivity. discriminate. Qed.
Lemma dd_view r : (r = [] /\ dd r = []) \/ exists t r' q, r = t :: r' /\ dd r = t :: q /\ (nonnl t = true -> q = dd r').
Proof.
  destruct r as [|t r']; [left; split; reflexivity|right]. destruct (nonnl t) eqn:N.
  - exists t, r', (dd r'). repeat split. apply dd_nonnl, N.
  - destruct t; try discriminate. cbn [dd]. destruct (dd r') as [|[] q] eqn:E; (eexists TNewline, r', _; split; [reflexivity|split; [reflexivity|discriminate]]).
Qed.
Lemma parse_dd : forall n ts, (List.length ts < n)%nat -> forall st cur acc, parse (dd ts) st cur acc = parse ts st cur acc.
Proof.
  induction n as [|n IH]; [intros; lia|]. intros ts L st cur acc. destruct ts as [|t r]; [reflexivity|]. cbn [List.length] in L.
  assert (R : forall st cur acc, parse (dd r) st cur acc = parse r st cur acc) by (apply IH; lia).
  assert (RL : forall q, (List.length q <= List.length r)%nat -> forall st cur acc, parse (dd q) st cur acc = parse q st cur acc) by (intros; apply IH; lia).
  destruct (nonnl t) eqn:N.
  - rewrite (dd_nonnl t r N). destruct cur as [v|].
    + destruct t; try discriminate; cbn [parse]; try reflexivity.
      * destruct (reduce (gprec op) st v) as [st' w]. apply R.
      * destruct (reduce 0 st v) as [[|[] st'] w]; try reflexivity.
        -- destruct (dd_view r) as [[-> E] | (t1 & r1 & q1 & -> & E & Q)]; [rewrite E; reflexivity|]. rewrite E. rewrite E in R.
           destruct t1; try apply R. rewrite (Q eq_refl) in *. destruct (dd_view r1) as [[-> E1] | (t2 & r2 & q2 & -> & E1 & Q2)]; [rewrite E1 in R |- *; apply R|].
           rewrite E1 in R |- *. destruct t2; try apply R. rewrite (Q2 eq_refl) in *. apply RL. cbn. lia.
        -- destruct (dd_view r) as [[-> E] | (t1 & r1 & q1 & -> & E & Q)]; [rewrite E; reflexivity|]. rewrite E.
           destruct t1; try reflexivity. rewrite (Q eq_refl) in *. destruct (dd_view r1) as [[-> E1] | (t2 & r2 & q2 & -> & E1 & Q2)]; [rewrite E1; reflexivity|].
           rewrite E1. destruct t2; try reflexivity. rewrite (Q2 eq_refl) in *. apply RL. cbn. lia.
      * destruct (reduce 0 st v) as [[|[] st'] w]; try reflexivity.
        -- apply R.
        -- destruct (call_2 f a w) as [e|]; [|reflexivity]. cbn [bind]. apply R.
        -- destruct (close_named f a args x w) as [e|]; [|reflexivity]. cbn [bind]. apply R.
      * destruct (reduce 0 st v) as [[|[] st'] w]; try reflexivity.
        destruct (dd_view r) as [[-> E] | (t1 & r1 & q1 & -> & E & Q)].
        -- rewrite E. destruct (storage x w); [|reflexivity]. reflexivity.
        -- rewrite E. rewrite E in R. destruct t1; try (destruct (storage x w); [|reflexivity]; cbn [bind]; apply R).
           rewrite (Q eq_refl). destruct (storage_op x); [|reflexivity]. cbn [bind]. destruct (const_eval w); [|reflexivity]. cbn [bind]. apply RL. cbn. lia.
    + destruct t; try discriminate; cbn [parse]; try reflexivity.
      * destruct (dd_view r) as [[-> E] | (t1 & r1 & q1 & -> & E & Q)]; [rewrite E; reflexivity|]. rewrite E. rewrite E in R.
        assert (RL1 : forall st cur acc, parse (dd r1) st cur acc = parse r1 st cur acc) by (apply RL; cbn; lia).
        destruct t1; try apply R; rewrite (Q eq_refl) in *; try apply RL1.
        destruct (dd_view r1) as [[-> E1] | (t2 & r2 & q2 & -> & E1 & Q2)]; [rewrite E1; reflexivity|]. rewrite E1 in RL1 |- *.
        destruct t2; try apply RL1.
        -- rewrite (Q2 eq_refl) in *. destruct (dd_view r2) as [[-> E2] | (t3 & r3 & q3 & -> & E2 & Q3)]; [rewrite E2 in RL1 |- *; apply RL1|]. rewrite E2 in RL1 |- *.
           destruct t3; try apply RL1. rewrite (Q3 eq_refl) in *. destruct (call_1 x n0); [|reflexivity]. cbn [bind]. apply RL. cbn. lia.
        -- rewrite (Q2 eq_refl) in *. apply RL. cbn. lia.
      * apply R.
      * destruct (op =? OP_SUB); [|reflexivity]. destruct (dd_view r) as [[-> E] | (t1 & r1 & q1 & -> & E & Q)]; [rewrite E; reflexivity|]. rewrite E.
        destruct t1; try reflexivity. rewrite (Q eq_refl). apply RL. cbn. lia.
      * apply R.
  - destruct t; try discriminate. destruct cur as [v|].
    + assert (X : exists q, dd (TNewline :: r) = TNewline :: q /\ forall acc, parse q [] None acc = parse (dd r) [] None acc).
      { cbn [dd]. destruct (dd r) as [|[] q] eqn:E; eexists; (split; [reflexivity|]); intros; reflexivity. }
      destruct X as (q & -> & X). cbn [parse]. destruct (reduce 0 st v) as [[|f st'] w]; [|reflexivity]. rewrite X. apply R.
    + destruct st as [|f st].
      * rewrite parse_newline. cbn [parse]. apply R.
      * cbn [dd]. destruct (dd r) as [|[] q]; reflexivity.
Qed.
Theorem parse_code_norm s t : norm false s = norm false t -> parse_code s = parse_code t.
Proof.
  intros E. unfold parse_code. rewrite <- (parse_dd _ (lex LNone s) (Nat.lt_succ_diag_r _)), <- (parse_dd _ (lex LNone t) (Nat.lt_succ_diag_r _)).
  rewrite <- (lex_norm s), <- (lex_norm t), E. reflexivity.
Qed.
(** A line feed before the first line changes nothing. *)
Theorem parse_code_newline s : parse_code (10 :: s) = parse_code s.
Proof.
  unfold parse_code. change (lex LNone (10 :: s)) with (lex LNewl s).
  rewrite <- (parse_dd _ (lex LNewl s) (Nat.lt_succ_diag_r _)).
  assert (G : forall n s, (List.length s < n)%nat -> lex_ok s) by (induction n as [|n IH]; [intros; lia|apply lex_step, IH]).
  destruct (G (S (List.length s)) s (Nat.lt_succ_diag_r _)) as (_ & A & B). rewrite <- A, B. rewrite parse_newline. apply (parse_dd _ _ (Nat.lt_succ_diag_r _)).
Qed.
