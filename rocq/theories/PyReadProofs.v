(** The reader of SpecPython on the texts that PyTextModel.repr prints. *)
From Coq Require Import ZArith List Bool Lia String.
From Verif Require Import Base BaseFacts CommonModel DecodeModel ParserModel GenPyModel PyValue SpecPython PyTextModel SheetProofs JsonProofs LexProofs.
Import ListNotations.
Open Scope Z_scope.

(** ** Where an expression ends *)
Definition stopc (c : Z) : bool := (c =? 41) || (c =? 44) || (c =? 58) || (c =? 93) || (c =? 125) || (c =? 10) || (c =? 124).
(** [stops]: the next thing is a comma, a colon, a closing bracket or |. *)
Definition stops (deep : bool) (r : bytes) : Prop := match ws deep r with [] => True | c :: _ => stopc c = true end.

Lemma skip_idem deep s : forall c, skip deep false (skip deep c s) = skip deep c s.
Proof.
  induction s as [|a s IH]; intros c; [reflexivity|]. cbn [skip].
  destruct (a =? 10) eqn:A.
  - destruct deep eqn:D; [apply IH|]. cbn [skip]. rewrite A. reflexivity.
  - destruct c; [apply IH|]. destruct (a =? 32) eqn:B; [apply IH|].
    destruct (a =? 35) eqn:C; [apply IH|]. cbn [skip]. rewrite A, B, C. reflexivity.
Qed.
Lemma ws_idem deep s : ws deep (ws deep s) = ws deep s.
Proof. apply skip_idem. Qed.
Lemma ws_cons deep c s : (c =? 10) = false -> (c =? 32) = false -> (c =? 35) = false -> ws deep (c :: s) = c :: s.
Proof. intros A B C. unfold ws. cbn [skip]. rewrite A, B, C. reflexivity. Qed.
Lemma ws_space deep s : ws deep (32 :: s) = ws deep s. Proof. reflexivity. Qed.
Lemma ws_nl s : ws true (10 :: s) = ws true s. Proof. reflexivity. Qed.

(** The first character of a rest where an expression ends. *)
Lemma stops_first deep r : stops deep r -> match r with [] => True | c :: _ => (stopc c || (c =? 32) || (c =? 35)) = true end.
Proof.
  unfold stops, ws. destruct r as [|c r]; [easy|]. cbn [skip].
  destruct (c =? 10) eqn:A.
  - intros _. unfold stopc. rewrite A. now rewrite !orb_true_r.
  - destruct (c =? 32) eqn:B; [intros _; now rewrite orb_true_r|]. destruct (c =? 35) eqn:C; [intros _; now rewrite orb_true_r|].
    intros ->. reflexivity.
Qed.
Lemma first_bits c : (stopc c || (c =? 32) || (c =? 35)) = true ->
  identb c = false /\ c <> 46 /\ quoteb c = false /\ digitb c = false /\ c <> 40 /\ c <> 91 /\ c <> 61.
Proof.
  unfold stopc, identb, letterb, digitb, quoteb. intros H.
  repeat (rewrite orb_true_iff in H); rewrite ?Z.eqb_eq in H.
  assert (Q : c = 41 \/ c = 44 \/ c = 58 \/ c = 93 \/ c = 125 \/ c = 10 \/ c = 124 \/ c = 32 \/ c = 35) by tauto.
  destruct Q as [-> | [-> | [-> | [-> | [-> | [-> | [-> | [-> | ->]]]]]]]]; repeat split; try reflexivity; discriminate.
Qed.
Lemma stops_end deep r : stops deep r -> number_end r = true.
Proof.
  intros H. apply stops_first in H. destruct r as [|c r]; [reflexivity|]. cbn.
  destruct (first_bits c H) as (A & B & _). rewrite A. destruct (Z.eqb_spec c 46); [congruence|reflexivity].
Qed.

(** ** Numbers *)
Lemma dec_app : forall l acc r, forallb digitb l = true -> match r with [] => True | c :: _ => digitb c = false end ->
  dec acc (l ++ r) = (fold_left (fun a d => 10 * a + (d - 48)) l acc, r).
Proof.
  induction l as [|c l IH]; intros acc r H R.
  - cbn. destruct r as [|c r]; [reflexivity|]. cbn. rewrite R. reflexivity.
  - cbn [forallb] in H. apply andb_prop in H as [A B]. cbn [app dec fold_left]. rewrite A. apply IH; assumption.
Qed.
Lemma dec_digits_digits : forall fuel n, 0 <= n -> forallb digitb (dec_digits fuel n) = true.
Proof.
  induction fuel as [|fuel IH]; intros n H; [reflexivity|]. cbn [dec_digits]. destruct (Z.ltb_spec n 10).
  - cbn [forallb]. unfold digitb. rewrite andb_true_r. apply andb_true_intro. split; apply Z.leb_le; lia.
  - rewrite forallb_app. rewrite IH by (apply Z.div_pos; lia). cbn [forallb andb]. unfold digitb.
    pose proof (Z.mod_pos_bound n 10). rewrite andb_true_r. apply andb_true_intro. split; apply Z.leb_le; lia.
Qed.
(** No leading zero. *)
Lemma dec_digits_first : forall fuel n, 0 <= n < Z.of_nat fuel -> exists c r, dec_digits fuel n = c :: r /\ digitb c = true /\ (c = 48 -> n = 0 /\ r = []).
Proof.
  induction fuel as [|fuel IH]; intros n H; [lia|]. cbn [dec_digits]. destruct (Z.ltb_spec n 10).
  - exists (48 + n), []. split; [reflexivity|]. split; [unfold digitb; apply andb_true_intro; split; apply Z.leb_le; lia|].
    intros E. split; [lia|reflexivity].
  - assert (D : 1 <= n / 10 < Z.of_nat fuel).
    { split; [apply Z.div_le_lower_bound; lia|]. apply Z.lt_le_trans with n; [apply Z.div_lt; lia|lia]. }
    destruct (IH (n / 10) ltac:(lia)) as (c & r & E & C & Z0). rewrite E. exists c, (r ++ [48 + n mod 10]). split; [reflexivity|].
    split; [exact C|]. intros Q. destruct (Z0 Q). lia.
Qed.
Lemma number_nat n r : 0 <= n -> number_end r = true -> number (str_nat n ++ r) = Some (n, r).
Proof.
  intros H R. unfold str_nat.
  destruct (dec_digits_first (S (Z.to_nat n)) n ltac:(lia)) as (c & l & E & C & Z0).
  assert (V : dec 0 (dec_digits (S (Z.to_nat n)) n ++ r) = (n, r)).
  { rewrite dec_app; [|apply dec_digits_digits; lia|].
    - f_equal. apply (dec_digits_val (S (Z.to_nat n)) n). lia.
    - destruct r as [|x r]; [exact I|]. cbn in R. apply negb_true_iff, orb_false_iff in R as [R _].
      unfold identb in R. apply orb_false_iff in R. tauto. }
  rewrite E in V |- *. destruct (Z.eq_dec c 48) as [-> |N].
  - destruct (Z0 eq_refl) as [-> ->]. cbn [app number]. destruct r as [|x r]; [reflexivity|].
    assert (X : (x =? 120) = false).
    { destruct (Z.eqb_spec x 120) as [-> |]; [cbn in R; discriminate|reflexivity]. }
    assert (Hx : x <> 120) by (apply Z.eqb_neq; exact X).
    assert (Q : (if number_end (x :: r) then Some (0, x :: r) else None) = Some (0, x :: r)) by (rewrite R; reflexivity).
    destruct x as [|p|p]; try exact Q. repeat (destruct p as [p|p|]; try exact Q). exfalso. apply Hx. reflexivity.
  - cbn [app] in V. cbn [app number]. rewrite V.
    assert (Q : (if digitb c then let (v, r0) := (n, r) in if number_end r0 then Some (v, r0) else None else None) = Some (n, r)).
    { rewrite C, R. reflexivity. }
    destruct c as [|p|p]; try exact Q. do 6 (destruct p as [p|p|]; try exact Q). exfalso. apply N. reflexivity.
Qed.

(** ** Literals *)
Lemma hexval_digit d : 0 <= d < 16 -> hexval (hex_digit d) = Some d.
Proof.
  intros H. unfold hexval, hex_digit, digitb. destruct (Z.ltb_spec d 10).
  - destruct (Z.leb_spec 48 (48 + d)); [|lia]. destruct (Z.leb_spec (48 + d) 57); [|lia]. cbn [andb]. f_equal. lia.
  - destruct (Z.leb_spec 48 (87 + d)); [|lia]. destruct (Z.leb_spec (87 + d) 57); [lia|]. cbn [andb].
    destruct (Z.leb_spec 97 (87 + d)); [|lia]. destruct (Z.leb_spec (87 + d) 102); [|lia]. cbn [andb]. f_equal. lia.
Qed.
Lemma quoted_esc q c r : (q = 39 \/ q = 34) -> byteb c = true ->
  quoted q false (repr_esc q c ++ r) = do (x, r) <- quoted q false r; Some (c :: x, r).
Proof.
  intros Q B. unfold byteb in B. apply andb_prop in B as [B1 B2]. apply Z.leb_le in B1. apply Z.ltb_lt in B2.
  unfold repr_esc. destruct ((c =? q) || (c =? 92)) eqn:E1.
  - apply orb_true_iff in E1. rewrite !Z.eqb_eq in E1.
    assert (D : c = 92 \/ c = 39 \/ c = 34) by (destruct Q; destruct E1; lia).
    cbn [app quoted]. replace (92 =? 92) with true by reflexivity.
    destruct D as [-> | [-> | ->]]; reflexivity.
  - apply orb_false_iff in E1 as [E0 E1].
    destruct (c =? 9) eqn:E2; [apply Z.eqb_eq in E2; subst; reflexivity|].
    destruct (c =? 10) eqn:E3; [apply Z.eqb_eq in E3; subst; reflexivity|].
    destruct (c =? 13) eqn:E4; [apply Z.eqb_eq in E4; subst; reflexivity|].
    destruct ((c <? 32) || (127 <=? c)) eqn:E5.
    + cbn [app quoted]. replace (92 =? 92) with true by reflexivity.
      rewrite !hexval_digit; [|apply Z.mod_pos_bound; lia|split; [apply Z.div_pos; lia|apply Z.div_lt_upper_bound; lia]].
      rewrite <- (Z.div_mod c 16) by lia. reflexivity.
    + apply orb_false_iff in E5 as [E5 E6]. cbn [app quoted]. rewrite E1, E0, E3, E5. reflexivity.
Qed.
Lemma quoted_all q s : (q = 39 \/ q = 34) -> forallb byteb s = true ->
  forall r, quoted q false (flat_map (repr_esc q) s ++ q :: r) = Some (s, r).
Proof.
  intros Q. induction s as [|c s IH]; intros H r.
  - cbn [flat_map app]. destruct Q as [-> | ->]; reflexivity.
  - cbn [forallb] in H. apply andb_prop in H as [A B]. cbn [flat_map]. rewrite <- app_assoc, quoted_esc by assumption.
    rewrite IH by assumption. reflexivity.
Qed.
Lemma repr_quote_cases s : repr_quote s = 39 \/ repr_quote s = 34.
Proof. unfold repr_quote. destruct (_ && _); auto. Qed.
Lemma repr_chars_app s r : repr_chars s ++ r = repr_quote s :: flat_map (repr_esc (repr_quote s)) s ++ repr_quote s :: r.
Proof. unfold repr_chars. cbn. rewrite <- app_assoc. reflexivity. Qed.
(** '' is not the beginning of three quotes unless a third follows. *)
Lemma esc_first q c : (q = 39 \/ q = 34) -> byteb c = true -> exists a l, repr_esc q c = a :: l /\ a <> q.
Proof.
  intros Q B. unfold repr_esc. assert (92 <> q) by (destruct Q; lia).
  destruct ((c =? q) || (c =? 92)) eqn:E1; [eauto|].
  apply orb_false_iff in E1 as [E0 E1]. apply Z.eqb_neq in E0.
  repeat (match goal with |- context [if ?b then _ else _] => destruct b end; [eauto|]). eauto.
Qed.
Lemma not_triple s r : forallb byteb s = true -> match r with [] => True | c :: _ => quoteb c = false end ->
  opens_triple (repr_quote s) (flat_map (repr_esc (repr_quote s)) s ++ repr_quote s :: r) = false.
Proof.
  intros H R. destruct s as [|c s].
  - cbn [flat_map app]. unfold opens_triple. destruct r as [|a r]; [reflexivity|].
    destruct (repr_quote_cases []) as [-> | ->]; unfold quoteb in R; apply orb_false_iff in R as [R1 R2]; rewrite ?R1, ?R2; apply andb_false_r.
  - cbn [forallb] in H. apply andb_prop in H as [A _]. cbn [flat_map].
    destruct (esc_first (repr_quote (c :: s)) c (repr_quote_cases _) A) as (a & l & E & N). rewrite E. cbn [app].
    apply Z.eqb_neq in N. unfold opens_triple. destruct ((l ++ _) ++ _); [reflexivity|]. rewrite N. reflexivity.
Qed.
Lemma quote_is_quote s : quoteb (repr_quote s) = true.
Proof. destruct (repr_quote_cases s) as [-> | ->]; reflexivity. Qed.
Lemma text_repr s r : forallb byteb s = true -> match r with [] => True | c :: _ => quoteb c = false end ->
  text_literal (repr_chars s ++ r) = Some (s, r) /\ triple_literal (repr_chars s ++ r) = None.
Proof.
  intros H R. rewrite repr_chars_app. unfold text_literal, triple_literal.
  rewrite quote_is_quote, not_triple by assumption. split; [|reflexivity]. cbn [negb andb]. apply quoted_all; [apply repr_quote_cases|exact H].
Qed.
Lemma bytes_repr s r : forallb byteb s = true -> match r with [] => True | c :: _ => quoteb c = false end ->
  bytes_literal (98 :: repr_chars s ++ r) = Some (s, r).
Proof.
  intros H R. rewrite repr_chars_app. unfold bytes_literal. rewrite quote_is_quote, not_triple by assumption.
  assert (F : forallb (fun c => c <? 256) s = true).
  { rewrite forallb_forall in H |- *. intros c I. specialize (H c I). unfold byteb in H. apply andb_prop in H. tauto. }
  rewrite quoted_all by (assumption || apply repr_quote_cases). cbn beta iota delta -[forallb Z.ltb]. rewrite F. reflexivity.
Qed.

(** ** Names *)
Lemma ident_app : forall x r, forallb identb x = true -> match r with [] => True | c :: _ => identb c = false end -> ident (x ++ r) = (x, r).
Proof.
  induction x as [|c x IH]; intros r H R.
  - destruct r as [|c r]; [reflexivity|]. cbn. rewrite R. reflexivity.
  - cbn [forallb] in H. apply andb_prop in H as [A B]. cbn [app ident]. rewrite A, IH by assumption. reflexivity.
Qed.
Lemma name_app x r : good_name x = true -> match r with [] => True | c :: _ => identb c = false /\ quoteb c = false end -> name (x ++ r) = Some (x, r).
Proof.
  unfold good_name. destruct x as [|c x]; [discriminate|]. intros H R. apply andb_prop in H as [H K]. apply andb_prop in H as [L I].
  unfold name. cbn [app]. rewrite L. change (c :: x ++ r) with ((c :: x) ++ r).
  rewrite ident_app; [|exact I|destruct r; tauto]. apply negb_true_iff in K. rewrite K. destruct r as [|d r]; [reflexivity|].
  destruct R as [_ ->]. reflexivity.
Qed.
Lemma same_iff : forall a b, same a b = true <-> a = b.
Proof.
  induction a as [|x a IH]; intros [|y b]; split; intros H; try reflexivity; try discriminate; cbn in H |- *.
  - apply andb_prop in H as [A B]. apply Z.eqb_eq in A. apply IH in B. congruence.
  - injection H as -> ->. rewrite Z.eqb_refl. now apply IH.
Qed.
Lemma good_not x k : good_name x = true -> keyword k = true -> same x k = false.
Proof.
  intros G K. destruct (same x k) eqn:E; [|reflexivity]. apply same_iff in E. subst k.
  unfold good_name in G. destruct x; [discriminate|]. apply andb_prop in G as [_ G]. rewrite K in G. discriminate.
Qed.

(** ** Expressions *)
Definition nobar (deep : bool) (r : bytes) : Prop := match ws deep r with 124 :: _ => False | _ => True end.
Definition ureads (deep : bool) (s : bytes) (v : py) : Prop :=
  forall n rest, stops deep rest -> (6 * List.length s <= S n)%nat -> unary n deep (s ++ rest) = Some (v, rest).
(** [s] is read as [v] where an expression is expected. *)
Definition reads (deep : bool) (s : bytes) (v : py) : Prop :=
  forall n rest, stops deep rest -> nobar deep rest -> (6 * List.length s <= n)%nat -> expr n deep (s ++ rest) = Some (v, rest).

Lemma stops_nil deep : stops deep []. Proof. exact I. Qed.
Lemma nobar_nil deep : nobar deep []. Proof. exact I. Qed.
Lemma ureads_len deep s v : ureads deep s v -> (1 <= List.length s)%nat.
Proof. intros H. destruct s; [|cbn; lia]. specialize (H O [] (stops_nil deep) ltac:(cbn; lia)). discriminate. Qed.
Lemma reads_len deep s v : reads deep s v -> (1 <= List.length s)%nat.
Proof. intros H. destruct s; [|cbn; lia]. specialize (H O [] (stops_nil deep) I ltac:(cbn; lia)). discriminate. Qed.

Lemma alternatives_stop n deep v rest : nobar deep rest -> alternatives (S n) deep v rest = Some (v, rest).
Proof.
  unfold nobar. intros H. cbn [alternatives]. destruct (ws deep rest) as [|c r]; [reflexivity|].
  destruct c as [|p|p]; try reflexivity. repeat (destruct p as [p|p|]; try reflexivity). destruct H.
Qed.
Lemma ureads_reads deep s v : ureads deep s v -> reads deep s v.
Proof.
  intros H n rest S B L. pose proof (ureads_len _ _ _ H). destruct n as [|n]; [lia|]. cbn [expr].
  rewrite H by (assumption || lia). cbn [bind]. destruct n as [|n]; [lia|]. apply alternatives_stop. exact B.
Qed.

(** Leading blanks do not matter. *)
Definition skips (pre : bytes) : Prop := forall t, ws true (pre ++ t) = ws true t.
Lemma reads_pre pre s v : skips pre -> reads true s v -> reads true (pre ++ s) v.
Proof.
  intros P H n rest S B L. rewrite <- app_assoc. rewrite app_length in L.
  rewrite <- (H n rest S B) by lia. destruct n as [|n]; [reflexivity|]. cbn [expr].
  destruct n as [|n]; [reflexivity|]. cbn [unary]. rewrite P. reflexivity.
Qed.

(** What begins with a closing bracket or a comma is no expression. *)
Definition closec (c : Z) : bool := (c =? 41) || (c =? 93) || (c =? 125) || (c =? 44) || (c =? 58).
Lemma unary_close n deep s : match ws deep s with [] => True | c :: _ => closec c = true end -> unary n deep s = None.
Proof.
  intros H. destruct n as [|n]; [reflexivity|]. cbn [unary]. destruct (ws deep s) as [|c r].
  - destruct n; reflexivity.
  - assert (Q : c = 41 \/ c = 93 \/ c = 125 \/ c = 44 \/ c = 58).
    { unfold closec in H. rewrite !orb_true_iff, !Z.eqb_eq in H. tauto. }
    destruct n as [|n]; destruct Q as [-> | [-> | [-> | [-> | ->]]]]; reflexivity.
Qed.
Lemma expr_close n deep s : match ws deep s with [] => True | c :: _ => closec c = true end -> expr n deep s = None.
Proof. intros H. destruct n as [|n]; [reflexivity|]. cbn [expr]. rewrite unary_close by exact H. reflexivity. Qed.
Lemma reads_first s v rest : reads true s v -> stops true rest -> nobar true rest ->
  exists c r, ws true (s ++ rest) = c :: r /\ closec c = false.
Proof.
  intros H S B. specialize (H (6 * List.length s)%nat rest S B (Nat.le_refl _)).
  destruct (ws true (s ++ rest)) as [|c r] eqn:E.
  - rewrite expr_close in H by (rewrite E; exact I). discriminate.
  - exists c, r. split; [reflexivity|]. destruct (closec c) eqn:C; [|reflexivity].
    rewrite expr_close in H by (rewrite E; exact C). discriminate.
Qed.

(** An expression starts at the next thing that is not blank. *)
Lemma expr_ws n s : expr n true (ws true s) = expr n true s.
Proof.
  destruct n as [|n]; [reflexivity|]. cbn [expr]. destruct n as [|n]; [reflexivity|]. cbn [unary]. rewrite ws_idem. reflexivity.
Qed.

(** ** Comma-separated expressions *)
Lemma closing_stops deep c r : closec c = true -> stops deep (c :: r) /\ nobar deep (c :: r).
Proof.
  intros H. assert (Q : c = 41 \/ c = 93 \/ c = 125 \/ c = 44 \/ c = 58).
  { unfold closec in H. rewrite !orb_true_iff, !Z.eqb_eq in H. tauto. }
  destruct Q as [-> | [-> | [-> | [-> | ->]]]]; split; exact I || reflexivity.
Qed.
Lemma ws_closing deep c r : closec c = true -> ws deep (c :: r) = c :: r.
Proof.
  intros H. assert (Q : c = 41 \/ c = 93 \/ c = 125 \/ c = 44 \/ c = 58).
  { unfold closec in H. rewrite !orb_true_iff, !Z.eqb_eq in H. tauto. }
  destruct Q as [-> | [-> | [-> | [-> | ->]]]]; reflexivity.
Qed.

Lemma items_last n close s v rest : (close = 41 \/ close = 93) -> reads true s v -> (6 * List.length s <= n)%nat ->
  items (S n) close (s ++ close :: rest) = Some ([v], rest).
Proof.
  intros C H L. assert (CC : closec close = true) by (destruct C as [-> | ->]; reflexivity).
  destruct (closing_stops true close rest CC) as [S B].
  destruct (reads_first s v (close :: rest) H S B) as (c & r & E & K). cbn [items]. rewrite E.
  assert (N : (c =? close) = false).
  { apply Z.eqb_neq. intros ->. rewrite CC in K. discriminate. }
  rewrite N. rewrite <- E, expr_ws, (H n _ S B L). cbn [bind]. rewrite ws_closing by exact CC.
  rewrite Z.eqb_refl. reflexivity.
Qed.
Lemma items_cons n close s v t : (close = 41 \/ close = 93) -> reads true s v -> (6 * List.length s <= n)%nat ->
  items (S n) close (s ++ 44 :: t) = do (l, r) <- items n close t; Some (v :: l, r).
Proof.
  intros C H L. destruct (closing_stops true 44 t eq_refl) as [S B].
  destruct (reads_first s v (44 :: t) H S B) as (c & r & E & K). cbn [items]. rewrite E.
  assert (N : (c =? close) = false).
  { apply Z.eqb_neq. intros ->. destruct C as [-> | ->]; discriminate. }
  rewrite N. rewrite <- E, expr_ws, (H n _ S B L). cbn [bind]. rewrite ws_closing by reflexivity.
  assert (M : (44 =? close) = false) by (destruct C as [-> | ->]; reflexivity). rewrite M. reflexivity.
Qed.
Lemma skips_space : skips [32]. Proof. intros t. reflexivity. Qed.
(** A list printed with ", ". *)
Lemma items_joined close rest : (close = 41 \/ close = 93) -> forall (l : list (bytes * py)) n,
  Forall (fun e => reads true (fst e) (snd e)) l ->
  (6 * List.length (joins (txt ", ") (map fst l)) + 2 <= n)%nat ->
  items n close (joins (txt ", ") (map fst l) ++ close :: rest) = Some (map snd l, rest).
Proof.
  intros C. assert (CC : closec close = true) by (destruct C as [-> | ->]; reflexivity).
  assert (G : forall (l : list (bytes * py)) e n, Forall (fun e => reads true (fst e) (snd e)) (e :: l) ->
     (6 * List.length (joins (txt ", ") (map fst (e :: l))) + 2 <= n)%nat ->
     items n close (joins (txt ", ") (map fst (e :: l)) ++ close :: rest) = Some (map snd (e :: l), rest)).
  { induction l as [|e' l IH]; intros e n F L; inversion F as [|? ? Fe Fl]; subst.
    - cbn [map joins] in L |- *. destruct n as [|n]; [lia|]. apply items_last; [exact C|exact Fe|lia].
    - cbn [map] in L |- *. change (joins (txt ", ") (fst e :: fst e' :: map fst l)) with (fst e ++ 44 :: 32 :: joins (txt ", ") (map fst (e' :: l))) in L |- *.
      rewrite !app_length in L. cbn [List.length] in L. rewrite <- app_assoc. cbn [app].
      pose proof (reads_len _ _ _ Fe). destruct n as [|n]; [lia|].
      rewrite (items_cons n close _ _ _ C Fe) by lia.
      assert (Q : items n close (32 :: joins (txt ", ") (map fst (e' :: l)) ++ close :: rest) = items n close (joins (txt ", ") (map fst (e' :: l)) ++ close :: rest)).
      { destruct n; [reflexivity|]. cbn [items]. reflexivity. }
      rewrite Q, IH by (assumption || lia). reflexivity. }
  intros [|e l] n F L; [|apply G; assumption].
  cbn [map joins app]. destruct n as [|n]; [cbn in L; lia|]. cbn [items]. rewrite ws_closing by exact CC. rewrite Z.eqb_refl. reflexivity.
Qed.

(** ** Entries of dicts *)
Lemma entries_step n s k sv v t : reads true s k -> reads true sv v -> (6 * (List.length s + List.length sv) + 6 <= n)%nat ->
  stops true t -> nobar true t ->
  entries (S n) (s ++ 58 :: sv ++ t) =
    match ws true t with
    | 125 :: r => Some ([(k, v)], r)
    | 44 :: r => do (l, r) <- entries n r; Some ((k, v) :: l, r)
    | _ => None
    end.
Proof.
  intros Hs Hv L St Bt. destruct (closing_stops true 58 (sv ++ t) eq_refl) as [S B].
  destruct (reads_first s k (58 :: sv ++ t) Hs S B) as (c & r & E & K). cbn [entries]. rewrite E.
  assert (N : c <> 125) by (intros ->; discriminate).
  assert (X : expr n true (c :: r) = Some (k, 58 :: sv ++ t)).
  { rewrite <- E, expr_ws. apply Hs; [exact S|exact B|lia]. }
  assert (G : (do (k, r) <- expr n true (c :: r);
               match ws true r with
               | 58 :: r => do (v, r) <- expr n true r;
                            match ws true r with
                            | 125 :: r => Some ([(k, v)], r)
                            | 44 :: r => do (l, r) <- entries n r; Some ((k, v) :: l, r)
                            | _ => None
                            end
               | _ => None
               end) =
              match ws true t with
              | 125 :: r => Some ([(k, v)], r)
              | 44 :: r => do (l, r) <- entries n r; Some ((k, v) :: l, r)
              | _ => None
              end).
  { rewrite X. cbn [bind]. rewrite ws_closing by reflexivity. rewrite (Hv n t St Bt) by lia. reflexivity. }
  clear X E K. destruct c as [|p|p]; try exact G. repeat (destruct p as [p|p|]; try exact G). congruence.
Qed.

Lemma entries_joined rest : forall (l : list ((bytes * py) * (bytes * py))) n,
  Forall (fun e => reads true (fst (fst e)) (snd (fst e)) /\ reads true (fst (snd e)) (snd (snd e))) l ->
  let text := joins (txt ", ") (map (fun e => fst (fst e) ++ txt ": " ++ fst (snd e)) l) in
  (6 * List.length text + 2 <= n)%nat ->
  entries n (text ++ 125 :: rest) = Some (map (fun e => (snd (fst e), snd (snd e))) l, rest).
Proof.
  set (ent := fun e : (bytes * py) * (bytes * py) => fst (fst e) ++ txt ": " ++ fst (snd e)).
  assert (G : forall (l : list ((bytes * py) * (bytes * py))) e n,
     Forall (fun e => reads true (fst (fst e)) (snd (fst e)) /\ reads true (fst (snd e)) (snd (snd e))) (e :: l) ->
     (6 * List.length (joins (txt ", ") (map ent (e :: l))) + 2 <= n)%nat ->
     entries n (joins (txt ", ") (map ent (e :: l)) ++ 125 :: rest) = Some (map (fun e => (snd (fst e), snd (snd e))) (e :: l), rest)).
  { induction l as [|e' l IH]; intros [[s k] [sv v]] n F L; inversion F as [|? ? [F1 F2] Fl]; subst; cbn [fst snd] in F1, F2.
    - change (joins (txt ", ") (map ent [((s, k), (sv, v))])) with (s ++ 58 :: (32 :: sv)) in L |- *.
      rewrite app_length in L. cbn [List.length] in L. rewrite <- app_assoc. cbn [app].
      pose proof (reads_pre [32] sv v skips_space F2) as F2'. destruct n as [|n]; [lia|].
      destruct (closing_stops true 125 rest eq_refl) as [S B].
      change (s ++ 58 :: 32 :: sv ++ 125 :: rest) with (s ++ 58 :: (32 :: sv) ++ 125 :: rest).
      rewrite (entries_step n s k (32 :: sv) v (125 :: rest) F1 F2') by (assumption || cbn [List.length]; lia).
      rewrite ws_closing by reflexivity. reflexivity.
    - cbn [map] in L |- *. change (joins (txt ", ") (ent ((s, k), (sv, v)) :: ent e' :: map ent l)) with ((s ++ 58 :: 32 :: sv) ++ 44 :: 32 :: joins (txt ", ") (map ent (e' :: l))) in L |- *.
      rewrite !app_length in L. cbn [List.length] in L. rewrite <- !app_assoc. cbn [app].
      pose proof (reads_pre [32] sv v skips_space F2) as F2'.
      pose proof (reads_len _ _ _ F1). pose proof (reads_len _ _ _ F2). destruct n as [|n]; [lia|].
      set (t := 44 :: 32 :: joins (txt ", ") (map ent (e' :: l)) ++ 125 :: rest).
      destruct (closing_stops true 44 (32 :: joins (txt ", ") (map ent (e' :: l)) ++ 125 :: rest) eq_refl) as [S B]. fold t in S, B.
      change (s ++ 58 :: 32 :: sv ++ t) with (s ++ 58 :: (32 :: sv) ++ t).
      rewrite (entries_step n s k (32 :: sv) v t F1 F2') by (assumption || cbn [List.length]; lia).
      unfold t. rewrite ws_closing by reflexivity.
      assert (Q : entries n (32 :: joins (txt ", ") (map ent (e' :: l)) ++ 125 :: rest) = entries n (joins (txt ", ") (map ent (e' :: l)) ++ 125 :: rest)).
      { destruct n; [reflexivity|]. cbn [entries]. reflexivity. }
      rewrite Q, IH by (assumption || lia). reflexivity. }
  intros [|e l] n F text L; [|apply G; assumption].
  destruct n as [|n]; [cbn in L; lia|]. reflexivity.
Qed.

(** ** Arguments of calls *)
Lemma expr_eq n t : expr n true (61 :: t) = None.
Proof. destruct n as [|[|[|n]]]; reflexivity. Qed.
Lemma reads_not_eq s v rest : reads true s v -> stops true rest -> nobar true rest -> match s ++ rest with 61 :: _ => True | _ => False end -> False.
Proof.
  intros H S B E. specialize (H (6 * List.length s)%nat rest S B (Nat.le_refl _)).
  destruct (s ++ rest) as [|c q]; [exact E|]. destruct c as [|p|p]; try exact E.
  repeat (destruct p as [p|p|]; try exact E). rewrite expr_eq in H. discriminate.
Qed.
Lemma letter_ws deep c r : letterb c = true -> ws deep (c :: r) = c :: r /\ c <> 41 /\ c <> 45 /\ c <> 40 /\ c <> 91 /\ c <> 123 /\ digitb c = false /\ quoteb c = false.
Proof.
  intros H. assert (R : 97 <= c <= 122 \/ 65 <= c <= 90 \/ c = 95).
  { unfold letterb in H. rewrite !orb_true_iff, !andb_true_iff, !Z.leb_le, Z.eqb_eq in H. lia. }
  split; [apply ws_cons; apply Z.eqb_neq; lia|]. unfold digitb, quoteb. repeat split; try lia.
Qed.

Definition args_tail (n : nat) (named : bool) (x : bytes) (v : py) (t : bytes) : option (list (bytes * py) * bytes) :=
  match ws true t with
  | 41 :: r => Some ([(x, v)], r)
  | 44 :: r => do (l, r) <- arguments n named r; Some ((x, v) :: l, r)
  | _ => None
  end.
Lemma arguments_kw n named pre x s v t : skips pre -> good_name x = true -> reads true s v -> stops true t -> nobar true t ->
  (6 * List.length s <= n)%nat ->
  arguments (S n) named (pre ++ x ++ 61 :: s ++ t) = args_tail n true x v t.
Proof.
  intros P G H S B L. cbn [arguments]. rewrite P.
  destruct x as [|c x]; [discriminate|]. assert (LC : letterb c = true).
  { unfold good_name in G. apply andb_prop in G as [G _]. apply andb_prop in G. tauto. }
  destruct (letter_ws true c (x ++ 61 :: s ++ t) LC) as (W & N & _). cbn [app] in W |- *. rewrite W.
  assert (NM : name (c :: x ++ 61 :: s ++ t) = Some (c :: x, 61 :: s ++ t)).
  { change (c :: x ++ 61 :: s ++ t) with ((c :: x) ++ 61 :: s ++ t). apply name_app; [exact G|]. split; reflexivity. }
  assert (Q : (do (y, r) <- match name (c :: x ++ 61 :: s ++ t) with
                    | Some (x0, r') => match ws true r' with
                                     | 61 :: r'' => if match r'' with 61 :: _ => true | _ => false end then None else Some (x0, r'')
                                     | _ => Some ([], c :: x ++ 61 :: s ++ t)
                                     end
                    | None => Some ([], c :: x ++ 61 :: s ++ t)
                    end;
               do! (match y with [] => negb named | _ => true end);
               do (v, r) <- expr n true r;
               match ws true r with
               | 41 :: r => Some ([(y, v)], r)
               | 44 :: r => do (l, r) <- arguments n (match y with [] => named | _ => true end) r; Some ((y, v) :: l, r)
               | _ => None
               end) = args_tail n true (c :: x) v t).
  { rewrite NM. change (ws true (61 :: s ++ t)) with (61 :: s ++ t). cbv iota beta.
    assert (E : (match s ++ t with 61 :: _ => true | _ => false end) = false).
    { destruct (match s ++ t with 61 :: _ => true | _ => false end) eqn:E; [|reflexivity]. exfalso.
      apply (reads_not_eq s v t H S B). destruct (s ++ t) as [|d q]; [discriminate|]. destruct d as [|p|p]; try discriminate.
      repeat (destruct p as [p|p|]; try discriminate). exact I. }
    rewrite E. cbn [bind]. rewrite (H n t S B L). reflexivity. }
  clear NM. destruct c as [|p|p]; try exact Q. repeat (destruct p as [p|p|]; try exact Q). congruence.
Qed.

(** A positional argument: nothing that looks like [name=]. *)
Definition positional (s t : bytes) : Prop :=
  match name (ws true (s ++ t)) with
  | Some (_, r) => match ws true r with 61 :: _ => False | _ => True end
  | None => True
  end.
Lemma arguments_pos n s v t : reads true s v -> stops true t -> nobar true t -> positional s t -> (6 * List.length s <= n)%nat ->
  arguments (S n) false (s ++ t) = args_tail n false [] v t.
Proof.
  intros H S B P L. cbn [arguments].
  destruct (reads_first s v t H S B) as (c & r & E & K). unfold positional in P. rewrite E in P |- *.
  assert (X : expr n true (c :: r) = Some (v, t)).
  { rewrite <- E, expr_ws. apply H; assumption. }
  assert (N : c <> 41) by (intros ->; discriminate).
  assert (Q : (do (y, r) <- match name (c :: r) with
                    | Some (x, r') => match ws true r' with
                                     | 61 :: r'' => if match r'' with 61 :: _ => true | _ => false end then None else Some (x, r'')
                                     | _ => Some ([], c :: r)
                                     end
                    | None => Some ([], c :: r)
                    end;
               do! (match y with [] => negb false | _ => true end);
               do (v, r) <- expr n true r;
               match ws true r with
               | 41 :: r => Some ([(y, v)], r)
               | 44 :: r => do (l, r) <- arguments n (match y with [] => false | _ => true end) r; Some ((y, v) :: l, r)
               | _ => None
               end) = args_tail n false [] v t).
  { assert (M : match name (c :: r) with
                    | Some (x, r') => match ws true r' with
                                     | 61 :: r'' => if match r'' with 61 :: _ => true | _ => false end then None else Some (x, r'')
                                     | _ => Some ([], c :: r)
                                     end
                    | None => Some ([], c :: r)
                    end = Some ([], c :: r)).
    { destruct (name (c :: r)) as [[x r']|]; [|reflexivity]. destruct (ws true r') as [|d q]; [reflexivity|].
      destruct d as [|p|p]; try reflexivity. repeat (destruct p as [p|p|]; try reflexivity). destruct P. }
    rewrite M. cbn [bind negb]. rewrite X. reflexivity. }
  clear X E K P. destruct c as [|p|p]; try exact Q. repeat (destruct p as [p|p|]; try exact Q). congruence.
Qed.

(** An argument: blanks, a name (none if positional), a text. *)
Definition arg_text (a : bytes * bytes * bytes) : bytes :=
  let '(pre, x, s) := a in pre ++ match x with [] => s | _ => x ++ 61 :: s end.
Fixpoint args_text (l : list (bytes * bytes * bytes)) (tail : bytes) : bytes :=
  match l with
  | [] => tail
  | [(pre, x, s)] => pre ++ match x with [] => s ++ tail | _ => x ++ 61 :: s ++ tail end
  | (pre, x, s) :: r => pre ++ match x with [] => s ++ 44 :: args_text r tail | _ => x ++ 61 :: s ++ 44 :: args_text r tail end
  end.
Definition arg_ok (a : bytes * bytes * bytes) (v : py) : Prop :=
  let '(pre, x, s) := a in
  skips pre /\ (x = [] -> forall t, stops true t -> nobar true t -> positional s t) /\ (x <> [] -> good_name x = true) /\ reads true s v.
Definition ends_call (t r : bytes) : Prop := ws true t = 41 :: r \/ exists u, ws true t = 44 :: u /\ ws true u = 41 :: r.
Lemma ends_stops t r : ends_call t r -> stops true t /\ nobar true t.
Proof. unfold stops, nobar. intros [E | (u & E & _)]; rewrite E; split; exact I || reflexivity. Qed.
Lemma arguments_close n named u r : ws true u = 41 :: r -> arguments (S n) named u = Some ([], r).
Proof. intros E. cbn [arguments]. rewrite E. reflexivity. Qed.
Lemma args_tail_end n named x v t r : ends_call t r -> (1 <= n)%nat -> args_tail n named x v t = Some ([(x, v)], r).
Proof.
  intros [E | (u & E & F)] L; unfold args_tail; rewrite E; [reflexivity|]. destruct n as [|n]; [lia|].
  rewrite (arguments_close n named u r F). reflexivity.
Qed.
(** One argument followed by something. *)
Lemma arguments_one n named pre x s v t : arg_ok (pre, x, s) v -> stops true t -> nobar true t -> (x = [] -> named = false) ->
  (6 * List.length s <= n)%nat ->
  arguments (S n) named (pre ++ match x with [] => s ++ t | _ => x ++ 61 :: s ++ t end) = args_tail n (match x with [] => named | _ => true end) x v t.
Proof.
  intros (P & Q & G & R) S B O L. destruct x as [|c x].
  - rewrite (O eq_refl). transitivity (arguments (Datatypes.S n) false (s ++ t)); [cbn [arguments]; rewrite P; reflexivity|].
    apply arguments_pos; try assumption. apply Q; [reflexivity|exact S|exact B].
  - apply arguments_kw; try assumption. apply G. discriminate.
Qed.
Lemma arguments_all tail r : ends_call tail r -> forall (l : list ((bytes * bytes * bytes) * py)) n named, l <> [] ->
  Forall (fun e => arg_ok (fst e) (snd e)) l -> ordered named (map (fun e => snd (fst (fst e))) l) = true ->
  (6 * List.length (args_text (map fst l) []) + 2 <= n)%nat ->
  arguments n named (args_text (map fst l) tail) = Some (map (fun e => (snd (fst (fst e)), snd e)) l, r).
Proof.
  intros T. destruct (ends_stops tail r T) as [ST BT].
  induction l as [|[[[pre x] s] v] l IH]; intros n named NE F O L; [congruence|]. clear NE.
  inversion F as [|? ? Fe Fl]; subst. cbn [fst snd] in Fe.
  assert (RL : (1 <= List.length s)%nat) by (destruct Fe as (_ & _ & _ & R); apply (reads_len _ _ _ R)).
  cbn [map fst snd] in O. cbn [ordered] in O.
  assert (O1 : x = [] -> named = false).
  { intros ->. apply andb_prop in O as [O _]. destruct named; [discriminate|reflexivity]. }
  destruct l as [|e l].
  - cbn [map fst snd args_text] in L |- *. destruct n as [|n]; [lia|].
    assert (L2 : (6 * List.length s <= n)%nat).
    { rewrite app_length in L. destruct x; rewrite ?app_length in L; cbn [List.length] in L; rewrite ?app_length in L; lia. }
    rewrite (arguments_one n named pre x s v tail Fe ST BT O1 L2).
    apply args_tail_end; [exact T|]. lia.
  - destruct n as [|n]; [lia|].
    assert (E : forall tail, args_text (map fst ((pre, x, s, v) :: e :: l)) tail =
                pre ++ match x with [] => s ++ 44 :: args_text (map fst (e :: l)) tail | _ => x ++ 61 :: s ++ 44 :: args_text (map fst (e :: l)) tail end)
      by reflexivity.
    rewrite E in L |- *. destruct (closing_stops true 44 (args_text (map fst (e :: l)) tail) eq_refl) as [S B].
    assert (L2 : (6 * List.length s + 6 * List.length (args_text (map fst (e :: l)) []) + 6 <= n)%nat).
    { rewrite app_length in L. destruct x; rewrite ?app_length in L; cbn [List.length] in L; rewrite ?app_length in L; cbn [List.length] in L; lia. }
    rewrite (arguments_one n named pre x s v _ Fe S B O1) by lia.
    unfold args_tail. rewrite ws_closing by reflexivity.
    rewrite IH; [reflexivity|discriminate|exact Fl| |lia].
    destruct x; [|exact O]. apply andb_prop in O as [O2 O]. rewrite (O1 eq_refl). exact O.
Qed.

(** ** Every value printed by repr *)
Section py_ind2.
  Variable P : py -> Prop.
  Hypothesis HNone : P YNone.
  Hypothesis HBool : forall b, P (YBool b).
  Hypothesis HInt : forall n, P (YInt n).
  Hypothesis HBytes : forall b, P (YBytes b).
  Hypothesis HStr : forall b, P (YStr b).
  Hypothesis HText : forall b, P (YText b).
  Hypothesis HTuple : forall l, Forall P l -> P (YTuple l).
  Hypothesis HList : forall l, Forall P l -> P (YList l).
  Hypothesis HDict : forall l, Forall (fun e => P (fst e) /\ P (snd e)) l -> P (YDict l).
  Hypothesis HName : forall x, P (YName x).
  Hypothesis HAttr : forall e x, P e -> P (YAttr e x).
  Hypothesis HCall : forall f l, P f -> Forall (fun e => P (snd e)) l -> P (YCall f l).
  Hypothesis HOr : forall a b, P a -> P b -> P (YOr a b).
  Fixpoint py_ind2 (v : py) : P v :=
    match v with
    | YNone => HNone | YBool b => HBool b | YInt n => HInt n | YBytes b => HBytes b | YStr b => HStr b | YText b => HText b
    | YTuple l => HTuple l ((fix go l : Forall P l := match l with [] => Forall_nil _ | a :: r => Forall_cons a (py_ind2 a) (go r) end) l)
    | YList l => HList l ((fix go l : Forall P l := match l with [] => Forall_nil _ | a :: r => Forall_cons a (py_ind2 a) (go r) end) l)
    | YDict l => HDict l ((fix go l : Forall (fun e => P (fst e) /\ P (snd e)) l :=
                             match l with [] => Forall_nil _ | a :: r => Forall_cons a (conj (py_ind2 (fst a)) (py_ind2 (snd a))) (go r) end) l)
    | YName x => HName x
    | YAttr e x => HAttr e x (py_ind2 e)
    | YCall f l => HCall f l (py_ind2 f) ((fix go l : Forall (fun e => P (snd e)) l :=
                             match l with [] => Forall_nil _ | a :: r => Forall_cons a (py_ind2 (snd a)) (go r) end) l)
    | YOr a b => HOr a b (py_ind2 a) (py_ind2 b)
    end.
End py_ind2.

Lemma unary_atom n deep c r : (c =? 10) = false -> (c =? 32) = false -> (c =? 35) = false -> c <> 45 -> unary (S n) deep (c :: r) = atom n deep (c :: r).
Proof.
  intros A B C N. cbn [unary]. rewrite ws_cons by assumption.
  destruct c as [|p|p]; try reflexivity. repeat (destruct p as [p|p|]; try reflexivity). congruence.
Qed.
Lemma stopc_cases c : stopc c = true -> c = 41 \/ c = 44 \/ c = 58 \/ c = 93 \/ c = 125 \/ c = 10 \/ c = 124.
Proof. unfold stopc. rewrite !orb_true_iff, !Z.eqb_eq. tauto. Qed.
Lemma trailer_stop n deep a rest : stops deep rest -> trailer (S n) deep a rest = Some (a, rest).
Proof.
  unfold stops. intros H. cbn [trailer]. destruct (ws deep rest) as [|c r]; [reflexivity|].
  destruct (stopc_cases c H) as [-> | [-> | [-> | [-> | [-> | [-> | ->]]]]]]; reflexivity.
Qed.
Definition after_name (r : bytes) : Prop := match r with [] => True | c :: _ => identb c = false /\ quoteb c = false end.
Lemma stops_after deep r : stops deep r -> after_name r.
Proof. intros H. apply stops_first in H. destruct r as [|c r]; [exact I|]. destruct (first_bits c H) as (A & _ & B & _). split; assumption. Qed.
Lemma name_bytes x rest : good_name x = true -> after_name rest -> bytes_literal (x ++ rest) = None.
Proof.
  intros G R. unfold good_name in G. destruct x as [|c x]; [discriminate|].
  apply andb_prop in G as [G _]. apply andb_prop in G as [_ G]. cbn [forallb] in G. apply andb_prop in G as [_ G].
  assert (Q : forall q t, (c :: x) ++ rest = 98 :: q :: t -> quoteb q = false).
  { intros q t E. destruct x as [|d x].
    - cbn [app] in E. injection E as _ ->. destruct R. assumption.
    - cbn [app] in E. injection E as _ -> _. cbn [forallb] in G. apply andb_prop in G as [G _].
      unfold quoteb. destruct (Z.eqb_spec q 39) as [-> |]; [discriminate|]. destruct (Z.eqb_spec q 34) as [-> |]; [discriminate|]. reflexivity. }
  unfold bytes_literal. destruct ((c :: x) ++ rest) as [|a [|q t]]; [reflexivity|..].
  - destruct a as [|p|p]; try reflexivity. repeat (destruct p as [p|p|]; try reflexivity).
  - assert (Y : a = 98 -> (if quoteb q then
                      if opens_triple q t then None
                      else do (x, r) <- quoted q false t;
                           if forallb (fun c => c <? 256) x then Some (x, r) else None
                    else None) = None).
    { intros ->. rewrite (Q q t eq_refl). reflexivity. }
    destruct a as [|p|p]; try reflexivity. repeat (destruct p as [p|p|]; try reflexivity). apply Y. reflexivity.
Qed.
Lemma good_first x : good_name x = true -> exists c y, x = c :: y /\ letterb c = true /\ forallb identb x = true /\ keyword x = false.
Proof.
  unfold good_name. destruct x as [|c y]; [discriminate|]. intros G. apply andb_prop in G as [G K]. apply andb_prop in G as [L I].
  exists c, y. apply negb_true_iff in K. repeat split; assumption.
Qed.
Lemma atom_name n deep x rest : good_name x = true -> after_name rest -> atom (S n) deep (x ++ rest) = trailer n deep (YName x) rest.
Proof.
  intros G R. pose proof (name_bytes x rest G R) as NB. pose proof (name_app x rest G R) as NA.
  assert (ID : ident (x ++ rest) = (x, rest)).
  { destruct (good_first x G) as (c & y & -> & _ & I & _). apply ident_app; [exact I|]. destruct rest; [exact Logic.I|]. apply R. }
  destruct (good_first x G) as (c & y & E & L & _ & _). rewrite E in NB, NA, ID |- *. cbn [app] in NB, NA, ID |- *. cbn [atom].
  destruct (letter_ws deep c (y ++ rest) L) as (_ & _ & _ & H1 & H2 & H3 & H4 & H5).
  apply Z.eqb_neq in H1, H2, H3. rewrite H1, H2, H3, H4, H5, NB, ID. rewrite <- E, !good_not by (exact G || reflexivity).
  rewrite E, NA. reflexivity.
Qed.
Lemma unary_name n deep x rest : good_name x = true -> after_name rest -> unary (S (S n)) deep (x ++ rest) = trailer n deep (YName x) rest.
Proof.
  intros G R. rewrite <- (atom_name n deep x rest G R). destruct (good_first x G) as (c & y & -> & L & _ & _). cbn [app].
  assert (97 <= c <= 122 \/ 65 <= c <= 90 \/ c = 95).
  { unfold letterb in L. rewrite !orb_true_iff, !andb_true_iff, !Z.leb_le, Z.eqb_eq in L. lia. }
  apply unary_atom; try (apply Z.eqb_neq); lia.
Qed.
(** A name or a dotted name. *)
Lemma unary_head n deep f rest : head_ok f = true -> after_name rest -> (match ws deep rest with 46 :: _ => False | _ => True end) ->
  exists m, (n <= m)%nat /\ unary (S (S (S n))) deep (repr f ++ rest) = trailer m deep f rest.
Proof.
  intros H R D. destruct f; try discriminate.
  - cbn [head_ok repr] in *. exists (S n). split; [lia|]. apply unary_name; assumption.
  - destruct f; try discriminate. cbn [head_ok repr] in *. apply andb_prop in H as [H1 H2].
    exists n. split; [lia|]. rewrite <- app_assoc. rewrite unary_name; [|exact H1|split; reflexivity].
    cbn [app trailer]. change (ws deep (46 :: x ++ rest)) with (46 :: x ++ rest). cbv iota.
    destruct (good_first x H2) as (c & y & E & L & _ & _).
    assert (W : ws deep (x ++ rest) = x ++ rest) by (rewrite E; cbn [app]; destruct (letter_ws deep c (y ++ rest) L) as (W & _); exact W).
    rewrite W, name_app by assumption. reflexivity.
Qed.

Definition good_text (s : bytes) (v : py) : Prop :=
  (forall deep, ureads deep s v) /\ (forall t, stops true t -> nobar true t -> positional s t).
Lemma positional_nonletter c s t : letterb c = false -> (c =? 10) = false -> (c =? 32) = false -> (c =? 35) = false -> positional (c :: s) t.
Proof. intros L A B C. unfold positional. cbn [app]. rewrite ws_cons by assumption. cbn [name]. rewrite L. exact I. Qed.
Lemma stops_noeq t : stops true t -> match ws true t with 61 :: _ => False | _ => True end.
Proof.
  unfold stops. destruct (ws true t) as [|c r]; [easy|]. intros H.
  destruct (stopc_cases c H) as [-> | [-> | [-> | [-> | [-> | [-> | ->]]]]]]; exact I.
Qed.
Lemma positional_name x u t : good_name x = true -> after_name (u ++ t) -> (match ws true (u ++ t) with 61 :: _ => False | _ => True end) -> positional (x ++ u) t.
Proof.
  intros G R N. unfold positional. rewrite <- app_assoc. destruct (good_first x G) as (c & y & E & L & _ & _).
  assert (W : ws true (x ++ u ++ t) = x ++ u ++ t) by (rewrite E; cbn [app]; destruct (letter_ws true c (y ++ u ++ t) L) as (W & _); exact W).
  rewrite W, name_app by assumption. exact N.
Qed.

(** Words that are values. *)
Lemma atom_word n deep w c y rest : w = c :: y -> letterb c = true -> c <> 98 -> ident (w ++ rest) = (w, rest) ->
  atom (S n) deep (w ++ rest) =
    if same w (txt "None") then Some (YNone, rest) else if same w (txt "True") then Some (YBool true, rest)
    else if same w (txt "False") then Some (YBool false, rest) else do (x, r) <- name (w ++ rest); trailer n deep (YName x) r.
Proof.
  intros E L N ID. rewrite E in ID |- *. cbn [app] in ID |- *. cbn [atom].
  destruct (letter_ws deep c (y ++ rest) L) as (_ & _ & _ & H1 & H2 & H3 & H4 & H5).
  apply Z.eqb_neq in H1, H2, H3. rewrite H1, H2, H3, H4, H5.
  assert (NB : bytes_literal (c :: y ++ rest) = None).
  { unfold bytes_literal. destruct c as [|p|p]; try reflexivity. repeat (destruct p as [p|p|]; try reflexivity). congruence. }
  rewrite NB, ID. reflexivity.
Qed.
Lemma good_word w v : (w = txt "None" /\ v = YNone) \/ (w = txt "True" /\ v = YBool true) \/ (w = txt "False" /\ v = YBool false) -> good_text w v.
Proof.
  intros H.
  assert (W : exists c y, w = c :: y /\ letterb c = true /\ c <> 98 /\ forallb identb w = true /\ keyword w = true /\ (4 <= List.length w)%nat).
  { destruct H as [[-> _] | [[-> _] | [-> _]]].
    - exists 78, [111; 110; 101]. repeat split; try discriminate; cbn; lia.
    - exists 84, [114; 117; 101]. repeat split; try discriminate; cbn; lia.
    - exists 70, [97; 108; 115; 101]. repeat split; try discriminate; cbn; lia. }
  destruct W as (c & y & E & LC & NC & FI & KW & LW).
  assert (ID : forall t, after_name t -> ident (w ++ t) = (w, t)).
  { intros t A. apply ident_app; [exact FI|]. destruct t; [exact I|apply A]. }
  split.
  - intros deep n rest S L. pose proof (ID rest (stops_after deep rest S)) as ID1.
    destruct n as [|[|n]]; [lia..|].
    transitivity (atom (Datatypes.S n) deep (w ++ rest)).
    { rewrite E. cbn [app]. assert (97 <= c <= 122 \/ 65 <= c <= 90 \/ c = 95).
      { unfold letterb in LC. rewrite !orb_true_iff, !andb_true_iff, !Z.leb_le, Z.eqb_eq in LC. lia. }
      apply unary_atom; try (apply Z.eqb_neq); lia. }
    rewrite (atom_word n deep w c y rest E LC NC ID1). destruct H as [[-> ->] | [[-> ->] | [-> ->]]]; reflexivity.
  - intros t S B. unfold positional. pose proof (ID t (stops_after true t S)) as ID1.
    assert (N : name (ws true (w ++ t)) = None).
    { rewrite E. cbn [app]. destruct (letter_ws true c (y ++ t) LC) as (W & _). rewrite W. cbn [name]. rewrite LC.
      rewrite E in ID1. cbn [app] in ID1. rewrite ID1. rewrite <- E, KW. reflexivity. }
    rewrite N. exact I.
Qed.

Lemma more_text_stop n deep b r : stops deep r -> more_text (S n) deep b r = Some (b, r).
Proof.
  intros H. cbn [more_text]. unfold stops in H. unfold text_literal. destruct (ws deep r) as [|c q]; [reflexivity|].
  destruct (stopc_cases c H) as [-> | [-> | [-> | [-> | [-> | [-> | ->]]]]]]; reflexivity.
Qed.
Lemma more_bytes_stop n deep b r : stops deep r -> more_bytes (S n) deep b r = Some (b, r).
Proof.
  intros H. cbn [more_bytes]. unfold stops in H. unfold bytes_literal. destruct (ws deep r) as [|c q]; [reflexivity|].
  destruct (stopc_cases c H) as [-> | [-> | [-> | [-> | [-> | [-> | ->]]]]]]; reflexivity.
Qed.
Lemma stops_noquote deep r : stops deep r -> match r with [] => True | c :: _ => quoteb c = false end.
Proof. intros H. apply stops_after in H. destruct r; [exact I|apply H]. Qed.
Lemma good_bytes b : forallb byteb b = true -> good_text (98 :: repr_chars b) (YBytes b).
Proof.
  intros H. split.
  - intros deep n rest S L. cbn [app]. destruct n as [|[|[|n]]]; [unfold repr_chars in L; cbn [List.length] in L; lia..|].
    rewrite unary_atom by (reflexivity || discriminate). cbn [atom].
    change (98 =? 40) with false. change (98 =? 91) with false. change (98 =? 123) with false. change (digitb 98) with false. change (quoteb 98) with false. cbv iota.
    rewrite bytes_repr by (assumption || apply (stops_noquote deep); assumption). rewrite more_bytes_stop by assumption. reflexivity.
  - intros t S B. unfold positional. cbn [app]. rewrite ws_cons by reflexivity.
    unfold repr_chars. cbn [app]. set (q := repr_quote b). assert (Q : identb q = false /\ quoteb q = true) by (unfold q; destruct (repr_quote_cases b) as [-> | ->]; split; reflexivity).
    cbn [name]. change (letterb 98) with true. cbv iota. cbn [ident]. change (identb 98) with true. cbv iota. destruct Q as [Q1 Q2]. rewrite Q1, Q2, orb_true_r. exact I.
Qed.
Lemma good_str s : forallb byteb s = true -> good_text (repr_chars s) (YStr s).
Proof.
  intros H. split.
  - intros deep n rest S L. destruct n as [|[|[|n]]]; [unfold repr_chars in L; rewrite ?app_length in L; cbn [List.length] in L; rewrite ?app_length in L; cbn [List.length] in L; lia..|].
    destruct (text_repr s rest H (stops_noquote deep rest S)) as [T1 T2].
    assert (E : exists q u, repr_chars s ++ rest = q :: u /\ (q = 39 \/ q = 34)).
    { unfold repr_chars. cbn [app]. eexists _, _. split; [reflexivity|]. apply repr_quote_cases. }
    destruct E as (q & u & E & Q). rewrite E in T1, T2 |- *.
    rewrite unary_atom by (destruct Q as [-> | ->]; reflexivity || discriminate). cbn [atom].
    assert (C : (q =? 40) = false /\ (q =? 91) = false /\ (q =? 123) = false /\ digitb q = false /\ quoteb q = true) by (destruct Q as [-> | ->]; repeat split).
    destruct C as (C1 & C2 & C3 & C4 & C5). rewrite C1, C2, C3, C4, C5, T2, T1. cbn [bind]. rewrite more_text_stop by assumption. reflexivity.
  - intros t S B. unfold repr_chars. destruct (repr_quote_cases s) as [-> | ->]; apply positional_nonletter; reflexivity.
Qed.
Lemma good_number s v : (forall r, number_end r = true -> number (s ++ r) = Some (v, r)) -> (exists c y, s = c :: y /\ digitb c = true) -> good_text s (YInt v).
Proof.
  intros H (c & y & E & D). assert (R : 48 <= c <= 57) by (unfold digitb in D; lia).
  split.
  - intros deep n rest S L. destruct n as [|[|n]]; [rewrite E in L; cbn [List.length] in L; lia..|].
    pose proof (H rest (stops_end deep rest S)) as N. rewrite E in N |- *. cbn [app] in N |- *.
    rewrite unary_atom by (try apply Z.eqb_neq; lia). cbn [atom].
    assert (C : (c =? 40) = false /\ (c =? 91) = false /\ (c =? 123) = false) by (repeat split; apply Z.eqb_neq; lia).
    destruct C as (C1 & C2 & C3). rewrite C1, C2, C3, D, N. reflexivity.
  - intros t S B. rewrite E. apply positional_nonletter; try (apply Z.eqb_neq; lia). unfold letterb. lia.
Qed.
Lemma good_int n : good_text (str_int n) (YInt n).
Proof.
  unfold str_int. destruct (Z.ltb_spec n 0).
  - split.
    + intros deep f rest S L. cbn [app]. destruct f as [|f]; [cbn [List.length] in L; lia|]. cbn [unary].
      rewrite ws_cons by reflexivity. cbv iota.
      assert (W : ws deep (str_nat (- n) ++ rest) = str_nat (- n) ++ rest).
      { unfold str_nat. destruct (dec_digits_first (Datatypes.S (Z.to_nat (- n))) (- n) ltac:(lia)) as (c & y & E & D & _). rewrite E. cbn [app].
        unfold digitb in D. apply ws_cons; apply Z.eqb_neq; lia. }
      rewrite W, number_nat by (lia || apply (stops_end deep); assumption). cbn [bind]. f_equal. f_equal. f_equal. lia.
    + intros t S B. apply positional_nonletter; reflexivity.
  - apply good_number.
    + intros r R. apply number_nat; assumption.
    + unfold str_nat. destruct (dec_digits_first (S (Z.to_nat n)) n ltac:(lia)) as (c & y & E & D & _). exists c, y. split; assumption.
Qed.

Lemma good_reads deep s v : good_text s v -> reads deep s v.
Proof. intros [H _]. apply ureads_reads, H. Qed.

Lemma joins_app sep a l : l <> [] -> joins sep (a :: l) = a ++ sep ++ joins sep l.
Proof. destruct l; [congruence|reflexivity]. Qed.

(** Lists. *)
Lemma good_list (l : list (bytes * py)) : Forall (fun e => reads true (fst e) (snd e)) l ->
  good_text (91 :: joins (txt ", ") (map fst l) ++ [93]) (YList (map snd l)).
Proof.
  intros F. split.
  - intros deep n rest S L. cbn [app]. rewrite <- app_assoc. cbn [app].
    cbn [List.length] in L. rewrite app_length in L. cbn [List.length] in L.
    destruct n as [|[|n]]; [lia..|]. rewrite unary_atom by (reflexivity || discriminate). cbn [atom].
    change (91 =? 40) with false. change (91 =? 91) with true. cbv iota.
    rewrite items_joined; [reflexivity|right; reflexivity|exact F|lia].
  - intros t S B. apply positional_nonletter; reflexivity.
Qed.
(** Tuples. *)
Lemma paren_first n deep s v t : reads true s v -> stops true t -> nobar true t -> (6 * List.length s <= n)%nat ->
  atom (S n) deep (40 :: s ++ t) = match ws true t with
                                   | 41 :: r => Some (v, r)
                                   | 44 :: r => do (l, r) <- items n 41 r; Some (YTuple (v :: l), r)
                                   | _ => None
                                   end.
Proof.
  intros H S B L. cbn [atom]. change (40 =? 40) with true. cbv iota.
  destruct (reads_first s v t H S B) as (c & r & E & K). rewrite E.
  assert (X : expr n true (c :: r) = Some (v, t)).
  { rewrite <- E, expr_ws. apply H; assumption. }
  assert (G : (do (e, r) <- expr n true (c :: r);
               match ws true r with
               | 41 :: r => Some (e, r)
               | 44 :: r => do (l, r) <- items n 41 r; Some (YTuple (e :: l), r)
               | _ => None
               end) = match ws true t with
                                   | 41 :: r => Some (v, r)
                                   | 44 :: r => do (l, r) <- items n 41 r; Some (YTuple (v :: l), r)
                                   | _ => None
                                   end).
  { rewrite X. reflexivity. }
  assert (N : c <> 41) by (intros ->; discriminate).
  clear X E K. destruct c as [|p|p]; try exact G. repeat (destruct p as [p|p|]; try exact G). congruence.
Qed.
Lemma good_tuple (l : list (bytes * py)) : Forall (fun e => reads true (fst e) (snd e)) l ->
  good_text (match l with [e] => 40 :: fst e ++ [44; 41] | _ => 40 :: joins (txt ", ") (map fst l) ++ [41] end) (YTuple (map snd l)).
Proof.
  intros F. split.
  - intros deep n rest S L. destruct l as [|e [|e' l]].
    + cbn in L. destruct n as [|[|n]]; [lia..|]. reflexivity.
    + inversion F as [|? ? Fe _]; subst. cbn [app]. rewrite <- app_assoc. cbn [app].
      cbn [List.length] in L. rewrite app_length in L. cbn [List.length] in L.
      destruct n as [|[|n]]; [lia..|]. rewrite unary_atom by (reflexivity || discriminate).
      destruct (closing_stops true 44 (41 :: rest) eq_refl) as [S1 B1].
      rewrite (paren_first n deep _ _ _ Fe S1 B1) by lia. destruct n as [|n]; [lia|]. reflexivity.
    + inversion F as [|? ? Fe Fl]; subst.
      change (joins (txt ", ") (map fst (e :: e' :: l))) with (fst e ++ 44 :: 32 :: joins (txt ", ") (map fst (e' :: l))) in L |- *.
      cbn [app]. rewrite <- app_assoc. cbn [app].
      rewrite <- app_assoc. cbn [app]. cbn [List.length] in L. rewrite !app_length in L. cbn [List.length] in L.
      destruct n as [|[|n]]; [lia..|]. rewrite unary_atom by (reflexivity || discriminate).
      set (t := 44 :: 32 :: joins (txt ", ") (map fst (e' :: l)) ++ 41 :: rest).
      destruct (closing_stops true 44 (32 :: joins (txt ", ") (map fst (e' :: l)) ++ 41 :: rest) eq_refl) as [S1 B1]. fold t in S1, B1.
      rewrite (paren_first n deep _ _ _ Fe S1 B1) by lia. unfold t. rewrite ws_closing by reflexivity.
      assert (Q : items n 41 (32 :: joins (txt ", ") (map fst (e' :: l)) ++ 41 :: rest) = items n 41 (joins (txt ", ") (map fst (e' :: l)) ++ 41 :: rest)).
      { destruct n; reflexivity. }
      rewrite Q, items_joined; [reflexivity|left; reflexivity|exact Fl|lia].
  - intros t S B. destruct l as [|e [|e' l]]; apply positional_nonletter; reflexivity.
Qed.
(** Dicts. *)
Lemma good_dict (l : list ((bytes * py) * (bytes * py))) :
  Forall (fun e => reads true (fst (fst e)) (snd (fst e)) /\ reads true (fst (snd e)) (snd (snd e))) l ->
  good_text (123 :: joins (txt ", ") (map (fun e => fst (fst e) ++ txt ": " ++ fst (snd e)) l) ++ [125]) (YDict (map (fun e => (snd (fst e), snd (snd e))) l)).
Proof.
  intros F. split.
  - intros deep n rest S L. cbn [app]. rewrite <- app_assoc. cbn [app].
    cbn [List.length] in L. rewrite app_length in L. cbn [List.length] in L.
    destruct n as [|[|n]]; [lia..|]. rewrite unary_atom by (reflexivity || discriminate). cbn [atom].
    change (123 =? 40) with false. change (123 =? 91) with false. change (123 =? 123) with true. cbv iota.
    rewrite entries_joined; [reflexivity|exact F|lia].
  - intros t S B. apply positional_nonletter; reflexivity.
Qed.
(** Calls: [body] is what is between the brackets. *)
Lemma good_call f body args : head_ok f = true ->
  (forall n rest, (6 * List.length body + 9 <= n)%nat -> arguments n false (body ++ 41 :: rest) = Some (args, rest)) ->
  good_text (repr f ++ 40 :: body ++ [41]) (YCall f args).
Proof.
  intros H A. split.
  - intros deep n rest S L. rewrite <- app_assoc. cbn [app]. rewrite <- app_assoc. cbn [app].
    rewrite app_length in L. cbn [List.length] in L. rewrite app_length in L. cbn [List.length] in L.
    assert (LF : (1 <= List.length (repr f))%nat).
    { destruct f; try discriminate; cbn [repr head_ok] in *; [destruct x; [discriminate|cbn; lia]|rewrite app_length; cbn; lia]. }
    destruct n as [|[|[|n]]]; [lia..|].
    destruct (unary_head n deep f (40 :: body ++ 41 :: rest) H) as (m & Lm & E); [split; reflexivity|reflexivity|].
    rewrite E. destruct m as [|m]; [lia|]. cbn [trailer]. rewrite ws_cons by reflexivity. cbv iota.
    rewrite A by lia. cbn [bind]. destruct m as [|m]; [lia|]. apply trailer_stop. exact S.
  - intros t S B. destruct f; try discriminate; cbn [repr head_ok] in *.
    + apply positional_name; [exact H|split; reflexivity|exact I].
    + destruct f; try discriminate. apply andb_prop in H as [H1 H2]. cbn [repr]. rewrite <- app_assoc. apply positional_name; [exact H1|split; reflexivity|exact I].
Qed.

(** A list of arguments printed with ", ". *)
Definition arg_repr (e : bytes * py) : bytes := match fst e with [] => repr (snd e) | x => x ++ 61 :: repr (snd e) end.
Fixpoint spaced (first : bool) (l : list (bytes * py)) : list ((bytes * bytes * bytes) * py) :=
  match l with
  | [] => []
  | (x, v) :: r => ((if first then [] else [32], x, repr v), v) :: spaced false r
  end.
Lemma spaced_text l : forall first tail, l <> [] ->
  args_text (map fst (spaced first l)) tail = (if first then [] else [32]) ++ joins (txt ", ") (map arg_repr l) ++ tail.
Proof.
  induction l as [|[x v] l IH]; intros first tail NE; [congruence|]. destruct l as [|e l].
  - cbn [spaced map fst args_text joins]. unfold arg_repr. cbn [fst snd]. destruct x; [reflexivity|]. rewrite <- app_assoc. reflexivity.
  - assert (E : args_text (map fst (spaced first ((x, v) :: e :: l))) tail =
                (if first then [] else [32]) ++ match x with [] => repr v ++ 44 :: args_text (map fst (spaced false (e :: l))) tail
                                                | _ => x ++ 61 :: repr v ++ 44 :: args_text (map fst (spaced false (e :: l))) tail end).
    { destruct e. reflexivity. }
    rewrite E, (IH false tail) by discriminate. f_equal. cbn [map]. rewrite (joins_app (txt ", ") (arg_repr (x, v)) (arg_repr e :: map arg_repr l)) by discriminate.
    replace (arg_repr (x, v)) with (match x with [] => repr v | _ => x ++ 61 :: repr v end) by (destruct x; reflexivity).
    change (txt ", ") with [44; 32]. destruct x; cbn [app]; rewrite <- !app_assoc; [reflexivity|]. cbn [app]. rewrite <- ?app_assoc. cbn [app]. rewrite <- ?app_assoc. reflexivity.
Qed.
Lemma spaced_snd l : forall first, map (fun e : (bytes * bytes * bytes) * py => (snd (fst (fst e)), snd e)) (spaced first l) = l.
Proof. induction l as [|[x v] l IH]; intros first; [reflexivity|]. cbn. rewrite IH. reflexivity. Qed.
Lemma spaced_names l : forall first, map (fun e : (bytes * bytes * bytes) * py => snd (fst (fst e))) (spaced first l) = map fst l.
Proof. induction l as [|[x v] l IH]; intros first; [reflexivity|]. cbn. rewrite IH. reflexivity. Qed.
Lemma arguments_joined (l : list (bytes * py)) n rest : ordered false (map fst l) = true ->
  Forall (fun e => (fst e <> [] -> good_name (fst e) = true) /\ good_text (repr (snd e)) (snd e)) l ->
  (6 * List.length (joins (txt ", ") (map arg_repr l)) + 9 <= n)%nat ->
  arguments n false (joins (txt ", ") (map arg_repr l) ++ 41 :: rest) = Some (l, rest).
Proof.
  intros O F L. destruct l as [|e l].
  - destruct n as [|n]; [lia|]. reflexivity.
  - pose proof (spaced_text (e :: l) true (41 :: rest) ltac:(discriminate)) as T. cbn [app] in T. rewrite <- T.
    assert (K : forall first (l : list (bytes * py)), Forall (fun e => (fst e <> [] -> good_name (fst e) = true) /\ good_text (repr (snd e)) (snd e)) l ->
                Forall (fun e : (bytes * bytes * bytes) * py => arg_ok (fst e) (snd e)) (spaced first l)).
    { clear. intros first l. revert first. induction l as [|[x v] l IH]; intros first F; [constructor|]. inversion F as [|? ? [F1 F2] Fl]; subst. cbn [spaced].
      constructor; [|apply IH; assumption]. cbn [fst snd] in *. repeat split.
      - intros t. destruct first; reflexivity.
      - intros _. apply F2.
      - exact F1.
      - apply good_reads. exact F2. }
    rewrite <- (spaced_snd (e :: l) true) at 2.
    assert (EN : ends_call (41 :: rest) rest) by (left; reflexivity).
    assert (NE : spaced true (e :: l) <> []) by (destruct e; discriminate).
    apply (arguments_all (41 :: rest) rest EN _ n false NE (K true _ F)); [rewrite spaced_names; exact O|].
    rewrite spaced_text by discriminate. cbn [app]. rewrite app_nil_r. lia.
Qed.

Theorem repr_good : forall v, wfp v = true -> good_text (repr v) v.
Proof.
  induction v using py_ind2; intros W; cbn [wfp] in W; try discriminate.
  - apply good_word. left. split; reflexivity.
  - apply good_word. right. destruct b; [left|right]; split; reflexivity.
  - apply good_int.
  - apply good_bytes. exact W.
  - apply good_str. rewrite forallb_forall in W |- *. intros c I. specialize (W c I). unfold asciib in W. unfold byteb. lia.
  - assert (F : Forall (fun e : bytes * py => reads true (fst e) (snd e)) (map (fun v => (repr v, v)) l)).
    { apply Forall_map. rewrite forallb_forall in W. apply Forall_forall. intros v I. cbn [fst snd]. apply good_reads.
      rewrite Forall_forall in H. apply H; [exact I|]. apply W, I. }
    apply good_tuple in F. rewrite !map_map in F. cbn [fst snd] in F. rewrite map_id in F.
    destruct l as [|a [|b l]]; exact F.
  - assert (F : Forall (fun e : bytes * py => reads true (fst e) (snd e)) (map (fun v => (repr v, v)) l)).
    { apply Forall_map. rewrite forallb_forall in W. apply Forall_forall. intros v I. cbn [fst snd]. apply good_reads.
      rewrite Forall_forall in H. apply H; [exact I|]. apply W, I. }
    apply good_list in F. rewrite !map_map in F. cbn [fst snd] in F. rewrite map_id in F. exact F.
  - assert (F : Forall (fun e : (bytes * py) * (bytes * py) => reads true (fst (fst e)) (snd (fst e)) /\ reads true (fst (snd e)) (snd (snd e)))
                       (map (fun e => ((repr (fst e), fst e), (repr (snd e), snd e))) l)).
    { apply Forall_map. rewrite forallb_forall in W. apply Forall_forall. intros e I. cbn [fst snd].
      rewrite Forall_forall in H. destruct (H e I) as [H1 H2]. specialize (W e I). apply andb_prop in W as [W1 W2].
      split; apply good_reads; auto. }
    apply good_dict in F. rewrite !map_map in F. cbn [fst snd] in F.
    replace (map (fun x : py * py => (fst x, snd x)) l) with l in F by (rewrite <- map_id at 1; apply map_ext; intros [? ?]; reflexivity).
    exact F.
  - cbn [repr]. split.
    + intros deep n rest S L. assert (1 <= List.length x)%nat by (destruct x; [discriminate|cbn; lia]).
      destruct n as [|[|[|n]]]; [lia..|]. rewrite (unary_name (Datatypes.S n) deep x rest W (stops_after deep rest S)). apply trailer_stop. exact S.
    + intros t S B. rewrite <- (app_nil_r x). apply positional_name; [exact W|apply (stops_after true); exact S|apply stops_noeq; exact S].
  - cbn [head_ok] in W. destruct v; try discriminate. apply andb_prop in W as [W1 W2]. split.
    + intros deep n rest S L. cbn [repr] in L |- *. rewrite app_length in L. cbn [List.length] in L.
      assert (1 <= List.length x0)%nat by (destruct x0; [discriminate|cbn; lia]).
      destruct n as [|[|[|n]]]; [lia..|].
      destruct (unary_head n deep (YAttr (YName x0) x) rest) as (m & Lm & E); [cbn; now rewrite W1, W2|apply (stops_after deep); exact S| |].
      * unfold stops in S. destruct (ws deep rest) as [|c r]; [exact I|]. destruct (stopc_cases c S) as [-> | [-> | [-> | [-> | [-> | [-> | ->]]]]]]; exact I.
      * cbn [repr] in E. rewrite E. destruct m as [|m]; [lia|]. apply trailer_stop. exact S.
    + intros t S B. cbn [repr]. apply positional_name; [exact W1|split; reflexivity|exact I].
  - apply andb_prop in W as [W W3]. apply andb_prop in W as [W1 W2]. cbn [repr].
    change (map (fun e : bytes * py => match fst e with [] => repr (snd e) | x => x ++ 61 :: repr (snd e) end) l) with (map arg_repr l).
    apply good_call; [exact W1|]. intros n rest L. apply arguments_joined; [exact W2| |exact L].
    apply Forall_forall. intros e I. rewrite forallb_forall in W3. specialize (W3 e I). apply andb_prop in W3 as [W3 W4].
    rewrite Forall_forall in H. split; [|apply H; assumption]. intros N. destruct (fst e); [congruence|exact W3].
Qed.
