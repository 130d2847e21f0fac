(** Lexing of printed text. *)
From Coq Require Import ZArith List Bool String Lia.
From Verif Require Import Base BaseFacts CommonModel CommonProofs RecordsModel Action14Model Action14Proofs DecodeModel SheetProofs
  VA2Model VA2Vars SpecVA2 ParserModel SpecParser.
Import ListNotations.
Open Scope string_scope.
Open Scope list_scope.
Open Scope Z_scope.
Ltac Zify.zify_post_hook ::= Z.to_euclidean_division_equations.

(** What may follow a complete token. *)
Definition alnum (c : Z) : bool := is_alpha c || is_digit c.
Definition cmpch (c : Z) : bool := (60 <=? c) && (c <=? 62).
Definition bnd (s : bytes) : bool := match s with [] => true | c :: _ => negb (alnum c) && negb (cmpch c) end.
Definition okrest (s : bytes) : bool := match s with [] => true | c :: _ => negb (cmpch c) end.
Definition okhead (s : bytes) : bool := match s with [] => false | c :: _ => negb (cmpch c) && negb (c =? 10) end.

Lemma lex_start : forall st s, bnd s = true -> st <> LNewl -> lex st s = flush st ++ lex LNone s.
Proof.
  intros st [|c r] B Hn; [destruct st; reflexivity|]. cbn [bnd] in B.
  assert (continue st c = None).
  { apply andb_true_iff in B as [B B2]. apply negb_true_iff in B. unfold alnum in B.
    assert (is_digit c = false) by (destruct (is_digit c); [rewrite orb_true_r in B; discriminate|reflexivity]).
    assert (is_alpha c = false) by (destruct (is_alpha c); [discriminate|reflexivity]).
    destruct st; cbn; try reflexivity.
    - rewrite H, H0. reflexivity.
    - rewrite H. reflexivity.
    - unfold is_hex. rewrite H. unfold is_alpha in H0. cbn [orb].
      replace (((97 <=? c) && (c <=? 102)) || ((65 <=? c) && (c <=? 70))) with false; [reflexivity|]. lia.
    - unfold is_bin. unfold is_digit in H. replace ((48 <=? c) && (c <=? 49)) with false; [reflexivity|]. lia.
    - contradiction. }
  cbn [lex]. rewrite H. reflexivity.
Qed.

(** Text s is the tokens ts whatever separated text follows. *)
Definition Lx (s : bytes) (ts : list token) : Prop :=
  okhead s = true /\ forall rest, bnd rest = true -> lex LNone (s ++ rest) = ts ++ lex LNone rest.
(** Punctuation. *)
Definition Sy (s : bytes) (ts : list token) : Prop :=
  bnd s = true /\ okhead s = true /\ forall rest, okrest rest = true -> lex LNone (s ++ rest) = ts ++ lex LNone rest.

Lemma ok_rest : forall s r, okhead s = true -> okrest (s ++ r) = true.
Proof. intros [|c s] r H; [discriminate|]. cbn in *. apply andb_true_iff in H as [H _]. exact H. Qed.
Lemma bnd_rest : forall s, bnd s = true -> okrest s = true.
Proof. intros [|c s] H; [reflexivity|]. cbn in *. apply andb_true_iff in H as [_ H]. exact H. Qed.
Lemma bnd_app : forall s r, bnd s = true -> okhead s = true -> bnd (s ++ r) = true.
Proof. intros [|c s] r H K; [discriminate|exact H]. Qed.
Lemma ok_app : forall s r, okhead s = true -> okhead (s ++ r) = true.
Proof. intros [|c s] r H; [discriminate|exact H]. Qed.
Lemma Lx_app : forall a ta m tm b tb, Lx a ta -> Sy m tm -> Lx b tb -> Lx (a ++ m ++ b) (ta ++ tm ++ tb).
Proof.
  intros a ta m tm b tb [Ha La] (Bm & Nm & Lm) [Hb Lb]. split.
  - apply ok_app, Ha.
  - intros rest B. rewrite <- !app_assoc. rewrite La by (apply bnd_app; assumption).
    rewrite Lm by (apply ok_rest; assumption). rewrite (Lb rest B). reflexivity.
Qed.
Lemma Lx_close : forall a ta m tm, Lx a ta -> Sy m tm -> Lx (a ++ m) (ta ++ tm).
Proof.
  intros a ta m tm [Ha La] (Bm & Nm & Lm). split.
  - apply ok_app, Ha.
  - intros rest B. rewrite <- !app_assoc. rewrite La by (apply bnd_app; assumption).
    rewrite Lm by (apply bnd_rest; assumption). reflexivity.
Qed.
Lemma Sy_open : forall m tm b tb, Sy m tm -> Lx b tb -> Lx (m ++ b) (tm ++ tb).
Proof.
  intros m tm b tb (Bm & Nm & Lm) [Hb Lb]. split.
  - apply ok_app, Nm.
  - intros rest B. rewrite <- !app_assoc. rewrite Lm by (apply ok_rest; assumption). rewrite (Lb rest B). reflexivity.
Qed.
Lemma Sy_app : forall m tm n tn, Sy m tm -> Sy n tn -> Sy (m ++ n) (tm ++ tn).
Proof.
  intros m tm n tn (Bm & Nm & Lm) (Bn & Nn & Ln). split; [apply bnd_app; assumption|]. split; [apply ok_app; assumption|].
  intros rest R. rewrite <- !app_assoc. rewrite Lm by (apply ok_rest; assumption). rewrite (Ln rest R). reflexivity.
Qed.

(** Names. *)
Lemma lex_name : forall r acc rest, forallb (fun c => letter c || digit c) r = true -> bnd rest = true ->
  lex (LName acc) (r ++ rest) = TName (acc ++ r) :: lex LNone rest.
Proof.
  induction r as [|c r IH]; intros acc rest F B.
  - cbn [app]. rewrite lex_start by (auto; discriminate). rewrite app_nil_r. reflexivity.
  - cbn [forallb] in F. apply andb_true_iff in F as [F1 F2]. cbn [app lex continue].
    change (is_alpha c) with (letter c). change (is_digit c) with (digit c). rewrite F1, (IH _ _ F2 B), <- app_assoc. reflexivity.
Qed.
Lemma name_lx : forall x, identifier x = true -> Lx x [TName x].
Proof.
  intros [|c r] H; [discriminate|]. cbn in H. apply andb_true_iff in H as [H1 H2].
  assert (is_digit c = false) by (unfold letter, is_digit in *; lia).
  split; [cbn; unfold cmpch; unfold letter in H1; lia|]. intros rest B. cbn [app lex continue flush]. rewrite H.
  change (is_alpha c) with (letter c). rewrite H1. exact (lex_name r [c] rest H2 B).
Qed.

(** Decimal numbers. *)
Lemma lex_dec : forall r n rest, forallb is_digit r = true -> bnd rest = true ->
  lex (LDec n) (r ++ rest) = TNum (fold_left (fun a d => 10 * a + (d - 48)) r n) :: lex LNone rest.
Proof.
  induction r as [|c r IH]; intros n rest F B.
  - cbn [app fold_left]. rewrite lex_start by (auto; discriminate). reflexivity.
  - cbn [forallb] in F. apply andb_true_iff in F as [F1 F2]. cbn [app lex continue fold_left]. rewrite F1. exact (IH _ _ F2 B).
Qed.
Lemma dec_digits_digits : forall fuel n, 0 <= n -> forallb is_digit (dec_digits fuel n) = true.
Proof.
  induction fuel as [|fuel IH]; intros n H; [reflexivity|]. cbn [dec_digits]. destruct (Z.ltb_spec n 10).
  - cbn [forallb]. unfold is_digit. lia.
  - rewrite forallb_app, IH by lia. cbn [forallb andb]. unfold is_digit. lia.
Qed.
Lemma dec_digits_first : forall fuel n, 0 < n < Z.of_nat fuel -> exists d r, dec_digits fuel n = d :: r /\ 49 <= d <= 57.
Proof.
  induction fuel as [|fuel IH]; intros n H; [lia|]. cbn [dec_digits]. destruct (Z.ltb_spec n 10).
  - exists (48 + n), []. split; [reflexivity|lia].
  - destruct (IH (n / 10)) as (d & r & E & D); [lia|]. rewrite E. exists d, (r ++ [48 + n mod 10]). split; [reflexivity|exact D].
Qed.
Lemma nat_lx : forall n, 0 <= n -> Lx (str_nat n) [TNum n].
Proof.
  intros n Hn. unfold str_nat. destruct (Z.eq_dec n 0) as [->|Hz].
  - split; [reflexivity|]. intros rest B. cbn [Z.to_nat dec_digits Z.ltb Z.compare app lex continue flush].
    change (is_digit (48 + 0)) with true. destruct rest as [|x rest]; [reflexivity|].
    cbn [bnd] in B. assert (x <> 120 /\ x <> 98).
    { split; intros ->; discriminate B. }
    destruct rest as [|h rest].
    + rewrite lex_start by (auto; discriminate). reflexivity.
    + replace (x =? 120) with false by (symmetry; lia). replace (x =? 98) with false by (symmetry; lia).
      rewrite !andb_false_r. cbn [andb]. rewrite lex_start by (auto; discriminate). reflexivity.
  - destruct (dec_digits_first (S (Z.to_nat n)) n) as (d & r & E & D); [lia|].
    pose proof (dec_digits_digits (S (Z.to_nat n)) n ltac:(lia)) as F. rewrite E in F. cbn [forallb] in F.
    apply andb_true_iff in F as [F1 F2].
    pose proof (dec_digits_val (S (Z.to_nat n)) n ltac:(lia)) as V. rewrite E in V |- *. unfold digits_val in V. cbn [fold_left] in V.
    split; [cbn; unfold cmpch; lia|]. intros rest B. cbn [app lex continue flush]. rewrite F1.
    assert (Q : lex (LDec (d - 48)) (r ++ rest) = TNum n :: lex LNone rest).
    { rewrite (lex_dec r (d - 48) rest F2 B). rewrite <- V. do 3 f_equal; lia. }
    destruct (r ++ rest) as [|x [|h q]]; try exact Q.
    replace (d =? 48) with false by (symmetry; lia). cbn [andb]. exact Q.
Qed.
Definition numtok (i : Z) : list token := if i <? 0 then [TOp OP_SUB; TNum (- i)] else [TNum i].
Lemma int_lx : forall i, Lx (str_int i) (numtok i).
Proof.
  intros i. unfold str_int, numtok. destruct (Z.ltb_spec i 0).
  - destruct (nat_lx (- i) ltac:(lia)) as [H1 H2]. split; [reflexivity|]. intros rest B.
    cbn [app lex continue flush]. change (is_digit 45) with false. change (is_alpha 45) with false. cbn [Z.eqb Pos.eqb].
    rewrite (H2 rest B). reflexivity.
  - apply nat_lx. lia.
Qed.

(** Hexadecimal numbers. *)
Definition hexs_val (l : bytes) (n : Z) : Z := fold_left (fun a d => 16 * a + hex_val d) l n.
Lemma lex_hex : forall r n rest, forallb is_hex r = true -> bnd rest = true ->
  lex (LHex n) (r ++ rest) = TNum (hexs_val r n) :: lex LNone rest.
Proof.
  induction r as [|c r IH]; intros n rest F B.
  - cbn [app]. rewrite lex_start by (auto; discriminate). reflexivity.
  - cbn [forallb] in F. apply andb_true_iff in F as [F1 F2]. cbn [app lex continue]. rewrite F1. exact (IH _ _ F2 B).
Qed.
Lemma hex_digit_ok : forall d, 0 <= d < 16 -> is_hex (hex_digit d) = true /\ hex_val (hex_digit d) = d.
Proof.
  intros d H. unfold hex_digit, is_hex, hex_val, is_digit. destruct (Z.ltb_spec d 10).
  - split; [lia|]. destruct (Z.leb_spec (48 + d) 57); lia.
  - split; [lia|]. destruct (Z.leb_spec (87 + d) 57); [lia|]. destruct (Z.leb_spec (87 + d) 70); lia.
Qed.
Lemma hex_digits_ok : forall fuel n, 0 <= n < Z.of_nat fuel ->
  forallb is_hex (hex_digits fuel n) = true /\ hexs_val (hex_digits fuel n) 0 = n /\ hex_digits fuel n <> [].
Proof.
  induction fuel as [|fuel IH]; intros n H; [lia|]. cbn [hex_digits]. destruct (Z.ltb_spec n 16).
  - destruct (hex_digit_ok n ltac:(lia)) as [A B]. cbn [forallb hexs_val fold_left]. rewrite A.
    split; [reflexivity|]. split; [unfold hexs_val; cbn [fold_left]; rewrite B; lia|discriminate].
  - destruct (IH (n / 16)) as (A & B & C); [lia|]. destruct (hex_digit_ok (n mod 16) ltac:(lia)) as [D E].
    split; [rewrite forallb_app, A; cbn [forallb andb]; rewrite D; reflexivity|]. split.
    + unfold hexs_val in *. rewrite fold_left_app, B. cbn [fold_left]. rewrite E. lia.
    + destruct (hex_digits fuel (n / 16)); discriminate.
Qed.
Lemma hex_any : forall r n, forallb is_hex r = true -> r <> [] -> hexs_val r 0 = n -> Lx (48 :: 120 :: r) [TNum n].
Proof.
  intros [|h r] n F Hne V; [contradiction|]. split; [reflexivity|]. intros rest B.
  cbn [app]. cbn [lex continue flush]. change (is_digit 48) with true. cbn [Z.eqb Pos.eqb andb].
  cbn [forallb] in F. pose proof F as F'. apply andb_true_iff in F as [F1 F2]. rewrite F1.
  cbn [app]. rewrite (lex_hex r _ rest F2 B). rewrite <- V. reflexivity.
Qed.
Lemma hex_lx : forall n, 0 <= n -> Lx (48 :: 120 :: fmt_x n) [TNum n].
Proof.
  intros n H. unfold fmt_x. destruct (Z.ltb_spec n 0); [lia|]. unfold hex_nat.
  destruct (hex_digits_ok (S (Z.to_nat n)) n ltac:(lia)) as (A & B & C). exact (hex_any _ _ A C B).
Qed.
Lemma hex02_lx : forall n, 0 <= n -> Lx (48 :: 120 :: fmt_02x n) [TNum n].
Proof.
  intros n H. unfold fmt_02x. destruct (List.length (fmt_x n) <? 2)%nat; [|exact (hex_lx n H)].
  unfold fmt_x. destruct (Z.ltb_spec n 0); [lia|]. unfold hex_nat.
  destruct (hex_digits_ok (S (Z.to_nat n)) n ltac:(lia)) as (A & B & C). apply hex_any; [exact A|discriminate|exact B].
Qed.

(** Punctuation strings. *)
Lemma sy_infix : forall op s prio br, operators op = Some (Infix s, prio, br) -> op <> 8 -> op <> 9 -> Sy (nm s) [TOp op].
Proof.
  intros op s prio br H N8 N9. unfold operators in H.
  repeat match type of H with
    | match ?x with _ => _ end = _ => destruct x; try discriminate H
    end;
  injection H as <- <- <-; try congruence; (split; [reflexivity|split; [reflexivity|intros rest _; reflexivity]]).
Qed.

Ltac syt := split; [reflexivity|split; [reflexivity|intros rest _; reflexivity]].
Lemma sy_lp : Sy [40] [TLp]. Proof. syt. Qed.
Lemma sy_rp : Sy [41] [TRp]. Proof. syt. Qed.
Lemma sy_lb : Sy [91] [TLb]. Proof. syt. Qed.
Lemma sy_rb : Sy [93] [TRb]. Proof. syt. Qed.
Lemma sy_comma : Sy (nm ", ") [TComma]. Proof. syt. Qed.
Lemma sy_store : Sy (nm "] = ") [TRb; TAssign]. Proof. syt. Qed.

(** A name and an equals sign. *)
Lemma lex_assign : forall rest, okrest rest = true -> lex LNone (61 :: rest) = TAssign :: lex LNone rest.
Proof.
  intros [|c r] H; [reflexivity|].
  assert (c <> 61).
  { intros ->. discriminate H. }
  cbn [lex continue flush app]. change (is_digit 61) with false. change (is_alpha 61) with false. cbn [Z.eqb Pos.eqb].
  destruct (Z.eq_dec c 61) as [E|E]; [contradiction|].
  destruct c as [|q|q]; try reflexivity.
  repeat (match goal with |- context [match ?q with xI _ => _ | xO _ => _ | xH => _ end] => is_var q; destruct q; try reflexivity end).
  all: congruence.
Qed.
Definition named (x : bytes) : bytes := 44 :: 32 :: x ++ [61].
Lemma lex_named_end : forall r acc rest, forallb (fun c => letter c || digit c) r = true ->
  lex (LName acc) (r ++ 61 :: rest) = TName (acc ++ r) :: lex LNone (61 :: rest).
Proof.
  induction r as [|c r IH]; intros acc rest F.
  - rewrite app_nil_r. reflexivity.
  - cbn [forallb] in F. apply andb_true_iff in F as [F1 F2]. cbn [app]. cbn [lex continue].
    change (is_alpha c) with (letter c). change (is_digit c) with (digit c). rewrite F1. fold lex. rewrite (IH _ rest F2), <- app_assoc. reflexivity.
Qed.
Lemma sy_named : forall x, identifier x = true -> Sy (named x) [TComma; TName x; TAssign].
Proof.
  intros [|c r] H; [discriminate|]. cbn in H. apply andb_true_iff in H as [H1 H2].
  split; [reflexivity|]. split; [reflexivity|]. intros rest R.
  assert (is_digit c = false) by (unfold letter, is_digit in *; lia).
  assert (E : lex LNone (named (c :: r) ++ rest) = TComma :: lex LNone (c :: r ++ 61 :: rest)).
  { unfold named. cbn [app]. rewrite <- app_assoc. reflexivity. }
  rewrite E. cbn [app]. f_equal.
  transitivity (TName ([c] ++ r) :: lex LNone (61 :: rest)).
  - rewrite <- (lex_named_end r [c] rest H2). cbn [lex continue flush app]. rewrite H. change (is_alpha c) with (letter c). rewrite H1. reflexivity.
  - rewrite (lex_assign rest R). reflexivity.
Qed.

(** ---- the tokens of a printed expression ---- *)
Definition tbr (c : bool) (ts : list token) : list token := if c then TLp :: ts ++ [TRp] else ts.
Definition adjtok (adj : option (Z * Z * Z)) : list token :=
  match adj with
  | Some (t, add, dm) =>
    if t =? 1 then [TComma; TName (nm "add"); TAssign] ++ numtok add ++ [TComma; TName (nm "div"); TAssign] ++ numtok dm
    else if t =? 2 then [TComma; TName (nm "add"); TAssign] ++ numtok add ++ [TComma; TName (nm "mod"); TAssign] ++ numtok dm else []
  | None => []
  end.
Definition tailtok (sh mk : Z) (adj : option (Z * Z * Z)) : list token :=
  [TComma; TName (nm "shift"); TAssign] ++ numtok sh ++ [TComma; TName (nm "and"); TAssign; TNum mk] ++ adjtok adj ++ [TRp].
Fixpoint tk (e : node) (p : Z) : list token :=
  match e with
  | NExpr op a b =>
    match operators op with
    | None => []
    | Some (form, prio, br) =>
      match form with
      | Infix _ => tbr (prio <=? p) (tk a (prio - 1) ++ [TOp op] ++ tk b (if br then prio else prio - 1))
      | Func f => tbr (prio <=? p) ([TName (nm f); TLp] ++ tk a (prio - 1) ++ [TComma] ++ tk b (if br then prio else prio - 1) ++ [TRp])
      | Store r => tbr (prio <=? p) ([TName (nm r); TLb] ++ tk b 0 ++ [TRb; TAssign] ++ tk a (prio - 1))
      end
    end
  | NValue v => numtok (utoi32 v)
  | NVar x => [TName x]
  | NGen var sh mk adj => [TName (nm "var"); TLp; TNum var] ++ tailtok sh mk adj
  | NGenP var sh mk adj q =>
    [TName (nm "var"); TLp; TNum var; TComma; TName (nm "param"); TAssign; TLp] ++ tk q 0 ++ [TRp] ++ tailtok sh mk adj
  | NTemp r => [TName (nm "TEMP"); TLb] ++ tk r 0 ++ [TRb]
  | NPerm r => [TName (nm "PERM"); TLb] ++ tk r 0 ++ [TRb]
  | NCall n => [TName (nm "call"); TLp; TNum n; TRp]
  | NCallN x => [TName x; TLp; TRp]
  | NAssign _ _ | NVarP _ _ => []
  end.

Lemma neg_bits : forall v i, - 2 ^ 31 <= v < 0 -> 31 <= i -> Z.testbit v i = true.
Proof.
  intros v i H Hi. rewrite <- (Z.lnot_involutive v). rewrite Z.lnot_spec by lia.
  assert (0 <= Z.lnot v < 2 ^ 31) by (unfold Z.lnot; lia).
  destruct (Z.eq_dec (Z.lnot v) 0) as [E|E]; [rewrite E, Z.bits_0; reflexivity|].
  rewrite Z.bits_above_log2; [reflexivity|lia|]. apply Z.log2_lt_pow2; [lia|].
  apply Z.lt_le_trans with (2 ^ 31); [lia|]. apply Z.pow_le_mono_r; lia.
Qed.
Lemma utoi32_neg : forall v, - 2 ^ 31 <= v < 0 -> utoi32 v = v.
Proof.
  intros v H. unfold utoi32. change 2147483648 with (2 ^ 31).
  assert (L : Z.land v (2 ^ 31) = 2 ^ 31).
  { apply Z.bits_inj'. intros i Hi. rewrite Z.land_spec, Z.pow2_bits_eqb by lia. destruct (Z.eqb_spec 31 i) as [<-|N].
    - rewrite neg_bits by lia. reflexivity.
    - rewrite andb_false_r. reflexivity. }
  rewrite L. apply Z.bits_inj'. intros i Hi. rewrite Z.lor_spec.
  destruct (Z.le_gt_cases 31 i) as [G|G].
  - rewrite (neg_bits v i H G). reflexivity.
  - replace (- 2 ^ 31) with ((-1) * 2 ^ 31) by lia. rewrite Z.mul_pow2_bits_low by lia. apply orb_false_r.
Qed.
Lemma utoi32_word : forall v, word v = true -> utoi32 v = s32 v.
Proof.
  intros v H. unfold word in H. unfold s32, u32. change (2 ^ 31) with 2147483648 in *. change (2 ^ 32) with 4294967296 in *. destruct (Z.lt_ge_cases v 0).
  - rewrite utoi32_neg by lia. replace (v mod 4294967296) with (v + 4294967296) by lia.
    destruct (Z.ltb_spec (v + 4294967296) 2147483648); lia.
  - rewrite utoi32_spec by lia. rewrite Z.mod_small by lia. reflexivity.
Qed.
Lemma utoi32_reg : forall v, register v = true -> utoi32 v = v /\ word v = true.
Proof.
  intros v H. unfold register in H. assert (W : word v = true) by (unfold word; lia). split; [|exact W].
  rewrite utoi32_spec by lia. destruct (Z.ltb_spec v 2147483648); lia.
Qed.

Lemma Lx_br : forall c s ts, Lx s ts -> Lx (brackets c s) (tbr c ts).
Proof.
  intros [] s ts H; [|exact H]. cbn [brackets tbr]. exact (Sy_open _ _ _ _ sy_lp (Lx_close _ _ _ _ H sy_rp)).
Qed.

Lemma tail_lx : forall a ta sh mk adj, Lx a ta -> 0 <= mk -> adjustment adj = true ->
  Lx (a ++ nm ", shift=" ++ str_int sh ++ nm ", and=0x" ++ fmt_x mk ++ adj_str adj ++ [41]) (ta ++ tailtok sh mk adj).
Proof.
  intros a ta sh mk adj La Hm Ha. unfold tailtok.
  change (nm ", shift=") with (named (nm "shift")).
  change (nm ", and=0x" ++ fmt_x mk ++ adj_str adj ++ [41]) with (named (nm "and") ++ (48 :: 120 :: fmt_x mk) ++ adj_str adj ++ [41]).
  assert (M : forall b tb, Lx b tb -> Lx (a ++ named (nm "shift") ++ str_int sh ++ named (nm "and") ++ b)
     (ta ++ [TComma; TName (nm "shift"); TAssign] ++ numtok sh ++ [TComma; TName (nm "and"); TAssign] ++ tb)).
  { intros b tb Lb. apply Lx_app; [exact La|apply sy_named; reflexivity|]. apply Lx_app; [apply int_lx|apply sy_named; reflexivity|exact Lb]. }
  change ([TComma; TName (nm "and"); TAssign; TNum mk] ++ adjtok adj ++ [TRp]) with ([TComma; TName (nm "and"); TAssign] ++ [TNum mk] ++ adjtok adj ++ [TRp]).
  apply M. rewrite !app_assoc. apply Lx_close; [|exact sy_rp].
  destruct adj as [[[t add] dm]|]; [|cbn [adj_str adjtok]; rewrite !app_nil_r; exact (hex_lx mk Hm)].
  cbn [adjustment adj_str adjtok] in *.
  destruct (t =? 1); [|destruct (t =? 2); [|discriminate]].
  - apply Lx_app; [exact (hex_lx mk Hm)|exact (sy_named (nm "add") eq_refl)|]. apply Lx_app; [apply int_lx|exact (sy_named (nm "div") eq_refl)|apply int_lx].
  - apply Lx_app; [exact (hex_lx mk Hm)|exact (sy_named (nm "add") eq_refl)|]. apply Lx_app; [apply int_lx|exact (sy_named (nm "mod") eq_refl)|apply int_lx].
Qed.

Lemma index_lx : forall x a ta, identifier x = true -> Lx a ta -> Lx (x ++ [91] ++ a ++ [93]) (TName x :: TLb :: ta ++ [TRb]).
Proof.
  intros x a ta Hx La.
  exact (Lx_app _ _ _ _ _ _ (name_lx x Hx) sy_lb (Lx_close _ _ _ _ La sy_rb)).
Qed.
Lemma store_lx : forall x v a ta, identifier x = true -> 0 <= v -> Lx a ta ->
  Lx (x ++ nm "[0x" ++ fmt_02x v ++ nm "] = " ++ a) ([TName x; TLb] ++ [TNum v] ++ [TRb; TAssign] ++ ta).
Proof.
  intros x v a ta Hx Hv La.
  exact (Lx_app _ _ _ _ _ _ (name_lx x Hx) sy_lb (Lx_app _ _ _ _ _ _ (hex02_lx v Hv) sy_store La)).
Qed.
Lemma infix_printable : forall op, existsb (Z.eqb op) [0; 1; 2; 3; 4; 5; 6; 7; 10; 11; 12; 13; 17; 18; 19; 20; 21; 22; -1; -2; -3; -4; -5; -6] = true ->
  op <> 8 /\ op <> 9 /\ op <> 14 /\ op <> 16 /\
  exists form prio br, operators op = Some (form, prio, br) /\
   match form with Infix _ => 3 <= prio <= 6 | Func f => identifier (nm f) = true /\ prio = 7 /\ br = false | Store _ => False end.
Proof.
  intros op H. cbn [existsb] in H.
  repeat (apply orb_true_iff in H as [H|H]; [apply Z.eqb_eq in H; subst op; repeat (split; [discriminate|]); do 3 eexists; split; [reflexivity|];
     cbn; repeat split; solve [reflexivity|lia|discriminate]|]).
  discriminate H.
Qed.

Theorem fmt_lx : forall hx e, printable e = true -> forall p, exists s, fmt hx e p = Some s /\ Lx s (tk e p).
Proof.
  intros hx. induction e as [op a IHa b IHb|x e IH|v|x|x q IH|var sh mk adj|var sh mk adj q IH|r IH|r IH|n|x]; intros P p; cbn [printable] in P.
  - destruct ((op =? 14) || (op =? 16)) eqn:E.
    + apply andb_true_iff in P as [Pa Pb]. destruct b as [| |v| | | | | | | |]; try discriminate.
      destruct (IHa Pa 1) as (s & F & L). destruct (utoi32_reg v Pb) as [U W].
      assert (0 <= v) by (unfold register in Pb; lia).
      assert (NT : numtok v = [TNum v]) by (unfold numtok; destruct (Z.ltb_spec v 0); [lia|reflexivity]).
      apply orb_true_iff in E as [E|E]; apply Z.eqb_eq in E; subst op; cbn [fmt tk operators]; change (2 - 1) with 1; rewrite F;
        cbv beta iota zeta delta [bind]; eexists; (split; [reflexivity|]); rewrite U, NT; apply Lx_br;
        apply store_lx; auto; reflexivity.
    + apply andb_true_iff in P as [P Pb]. apply andb_true_iff in P as [Po Pa].
      destruct (infix_printable op Po) as (N8 & N9 & _ & _ & form & prio & br & Ho & Hf).
      cbn [fmt tk]. rewrite Ho. destruct form as [i|f|]; [| |contradiction].
      * destruct (IHa Pa (prio - 1)) as (s & F & L). rewrite F.
        destruct (IHb Pb (if br then prio else prio - 1)) as (s' & F' & L'). rewrite F'. cbv beta iota zeta delta [bind].
        eexists; split; [reflexivity|]. apply Lx_br. apply Lx_app; auto. exact (sy_infix op i prio br Ho N8 N9).
      * destruct Hf as (Hf & Hp & Hb). destruct (IHa Pa (prio - 1)) as (s & F & L). rewrite F.
        destruct (IHb Pb (if br then prio else prio - 1)) as (s' & F' & L'). rewrite F'. cbv beta iota zeta delta [bind].
        eexists; split; [reflexivity|]. apply Lx_br.
        exact (Lx_app _ _ _ _ _ _ (name_lx _ Hf) sy_lp (Lx_app _ _ _ _ _ _ L sy_comma (Lx_close _ _ _ _ L' sy_rp))).
  - discriminate.
  - exists (str_int (utoi32 v)). split; [reflexivity|apply int_lx].
  - exists x. split; [reflexivity|exact (name_lx x P)].
  - discriminate.
  - apply andb_true_iff in P as [P Pj]. apply andb_true_iff in P as [Pv Pm].
    eexists. split; [reflexivity|].
    change (nm "var(0x" ++ fmt_02x var ++ nm ", shift=" ++ str_int sh ++ nm ", and=0x" ++ fmt_x mk ++ adj_str adj ++ [41])
      with (nm "var" ++ [40] ++ ((48 :: 120 :: fmt_02x var) ++ nm ", shift=" ++ str_int sh ++ nm ", and=0x" ++ fmt_x mk ++ adj_str adj ++ [41])).
    change (tk (NGen var sh mk adj) p) with ([TName (nm "var")] ++ [TLp] ++ ([TNum var] ++ tailtok sh mk adj)).
    apply Lx_app; [apply name_lx; reflexivity|exact sy_lp|]. apply tail_lx; auto; [apply hex02_lx|]; lia.
  - apply andb_true_iff in P as [P Pq]. apply andb_true_iff in P as [P Pj]. apply andb_true_iff in P as [Pv Pm].
    destruct (IH Pq 0) as (s & F & L). cbn [fmt]. rewrite F. cbv beta iota zeta delta [bind]. eexists. split; [reflexivity|].
    change (nm "var(0x" ++ fmt_02x var ++ nm ", param=(" ++ s ++ nm "), shift=" ++ str_int sh ++ nm ", and=0x" ++ fmt_x mk ++ adj_str adj ++ [41])
      with (nm "var" ++ [40] ++ ((48 :: 120 :: fmt_02x var) ++ named (nm "param") ++ [40] ++ s ++ [41] ++ nm ", shift=" ++ str_int sh ++ nm ", and=0x" ++ fmt_x mk ++ adj_str adj ++ [41])).
    change (tk (NGenP var sh mk adj q) p) with ([TName (nm "var")] ++ [TLp] ++ ([TNum var] ++ [TComma; TName (nm "param"); TAssign] ++ [TLp] ++ tk q 0 ++ [TRp] ++ tailtok sh mk adj)).
    apply Lx_app; [apply name_lx; reflexivity|exact sy_lp|].
    apply Lx_app; [apply hex02_lx; lia|exact (sy_named (nm "param") eq_refl)|].
    replace ([40] ++ s ++ [41] ++ nm ", shift=" ++ str_int sh ++ nm ", and=0x" ++ fmt_x mk ++ adj_str adj ++ [41])
      with (([40] ++ s ++ [41]) ++ nm ", shift=" ++ str_int sh ++ nm ", and=0x" ++ fmt_x mk ++ adj_str adj ++ [41]) by (rewrite <- !app_assoc; reflexivity).
    replace ([TLp] ++ tk q 0 ++ [TRp] ++ tailtok sh mk adj) with (([TLp] ++ tk q 0 ++ [TRp]) ++ tailtok sh mk adj) by (rewrite <- !app_assoc; reflexivity).
    apply tail_lx; [|lia|exact Pj]. exact (Sy_open _ _ _ _ sy_lp (Lx_close _ _ _ _ L sy_rp)).
  - assert (G : printable r = true -> match hx, r with true, NValue v => register v = true | _, _ => True end ->
       exists s, fmt hx (NTemp r) p = Some s /\ Lx s (tk (NTemp r) p)).
    { intros Pr Hr. destruct (IH Pr 0) as (s & F & L).
      assert (D : (exists v, hx = true /\ r = NValue v) \/ fmt hx (NTemp r) p = Some (nm "TEMP[" ++ s ++ [93])).
      { cbn [fmt]. destruct hx; [|right; rewrite F; reflexivity]. destruct r; try (right; rewrite F; reflexivity). left; eauto. }
      destruct D as [(v & -> & ->)|D].
      - destruct (utoi32_reg v Hr) as [U W]. eexists. split; [reflexivity|]. cbn [tk]. rewrite U.
        assert (0 <= v) by (unfold register in Hr; lia).
        replace (numtok v) with [TNum v] by (unfold numtok; destruct (Z.ltb_spec v 0); [lia|reflexivity]).
        exact (index_lx (nm "TEMP") _ _ eq_refl (hex02_lx v H)).
      - eexists. split; [exact D|]. exact (index_lx (nm "TEMP") _ _ eq_refl L). }
    destruct r as [| |v| | | | | | | |]; try (apply G; [exact P|destruct hx; exact I]).
    apply G; [exact (proj2 (utoi32_reg v P))|destruct hx; [exact P|exact I]].
  - assert (Pr : printable r = true) by exact P. destruct (IH Pr 0) as (s & F & L). cbn [fmt]. rewrite F. eexists. split; [reflexivity|].
    exact (index_lx (nm "PERM") _ _ eq_refl L).
  - apply andb_true_iff in P as [P1 P2]. eexists. split; [reflexivity|]. unfold str_int. destruct (Z.ltb_spec n 0); [lia|].
    exact (Lx_app _ _ _ _ _ _ (name_lx (nm "call") eq_refl) sy_lp (Lx_close _ _ _ _ (nat_lx n H) sy_rp)).
  - eexists. split; [reflexivity|]. exact (Lx_close _ _ _ _ (name_lx x P) (Sy_app _ _ _ _ sy_lp sy_rp)).
Qed.

(** Lines. *)
Lemma lex_newl : forall rest, okhead rest = true -> lex LNewl rest = TNewline :: lex LNone rest.
Proof.
  intros [|c r] H; [discriminate|]. cbn in H. apply andb_true_iff in H as [_ H]. apply negb_true_iff in H.
  cbn [lex continue]. rewrite H. reflexivity.
Qed.
Lemma lex_line : forall s ts rest, Lx s ts -> okhead rest = true -> lex LNone (s ++ 10 :: rest) = ts ++ TNewline :: lex LNone rest.
Proof.
  intros s ts rest [H L] R. rewrite L by reflexivity. f_equal. rewrite <- (lex_newl rest R). reflexivity.
Qed.
Fixpoint tk_lines (l : list node) : list token :=
  match l with [] => [] | [e] => tk e 0 | e :: r => tk e 0 ++ TNewline :: tk_lines r end.
Theorem fmt_lines_lx : forall hx l, forallb printable l = true ->
  exists s, fmt_lines hx l = Some s /\ (l <> [] -> okhead s = true) /\ lex LNone s = tk_lines l.
Proof.
  intros hx. induction l as [|e l IH]; intros P.
  - exists []. split; [reflexivity|]. split; [congruence|reflexivity].
  - cbn [forallb] in P. apply andb_true_iff in P as [Pe Pl]. destruct (fmt_lx hx e Pe 0) as (s & F & L).
    destruct (IH Pl) as (t & Ft & Ht & Lt). destruct l as [|e' l].
    + exists s. split; [exact F|]. split; [intros _; exact (proj1 L)|]. cbn [tk_lines].
      pose proof (proj2 L [] eq_refl) as Q. rewrite !app_nil_r in Q. exact Q.
    + exists (s ++ 10 :: t). cbn [fmt_lines tk_lines] in *. rewrite F, Ft. split; [reflexivity|].
      split; [intros _; apply ok_app, L|]. rewrite (lex_line s _ t L (Ht ltac:(discriminate))), Lt. reflexivity.
Qed.
