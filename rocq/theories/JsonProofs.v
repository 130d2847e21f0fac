(** json.dumps is injective: the text determines the value. *)
From Coq Require Import ZArith List Bool Lia.
From Verif Require Import Base BaseFacts DecodeModel ParserModel LexProofs SheetProofs JsonModel.
Import ListNotations.
Open Scope Z_scope.

(** Characters of a number. *)
Definition numchar (c : Z) : bool := ((48 <=? c) && (c <=? 57)) || (c =? 46) || (c =? 101) || (c =? 43) || (c =? 45).
(** repr() of a finite float: starts with a digit or the minus sign and has a
    point or an exponent. *)
Definition float_text (t : bytes) : bool :=
  match t with [] => false | c :: _ => ((48 <=? c) && (c <=? 57)) || (c =? 45) end
  && forallb numchar t && existsb (fun c => (c =? 46) || (c =? 101)) t.

Definition str_ok (s : bytes) : bool := forallb (fun c => 0 <=? c) s.
Fixpoint jwf (j : json) : bool :=
  match j with
  | JFloat r => float_text r
  | JStr s => str_ok s
  | JArr l => forallb jwf l
  | JObj l => forallb (fun e => str_ok (fst e) && jwf (snd e)) l
  | _ => true
  end.

Section ind.
  Variable P : json -> Prop.
  Hypothesis Hn : P JNull.
  Hypothesis Hb : forall b, P (JBool b).
  Hypothesis Hi : forall i, P (JInt i).
  Hypothesis Hf : forall r, P (JFloat r).
  Hypothesis Hs : forall s, P (JStr s).
  Hypothesis Ha : forall l, Forall P l -> P (JArr l).
  Hypothesis Ho : forall l, Forall (fun e => P (snd e)) l -> P (JObj l).
  Fixpoint json_ind' (j : json) : P j :=
    match j with
    | JNull => Hn | JBool b => Hb b | JInt i => Hi i | JFloat r => Hf r | JStr s => Hs s
    | JArr l => Ha l ((fix go l := match l return Forall P l with [] => Forall_nil _ | a :: r => Forall_cons _ (json_ind' a) (go r) end) l)
    | JObj l => Ho l ((fix go l := match l return Forall (fun e => P (snd e)) l with [] => Forall_nil _ | a :: r => Forall_cons _ (json_ind' (snd a)) (go r) end) l)
    end.
End ind.

(** What may follow a value. *)
Definition stop (r : bytes) : Prop := match r with [] => True | c :: _ => c = 44 \/ c = 93 \/ c = 125 end.

Lemma stop_num r : stop r -> match r with [] => True | c :: _ => numchar c = false end.
Proof. destruct r as [|c r]; [trivial|]. cbn. now intros [-> | [-> | ->]]. Qed.

Lemma munch : forall t1 t2 r1 r2, forallb numchar t1 = true -> forallb numchar t2 = true -> stop r1 -> stop r2 ->
  t1 ++ r1 = t2 ++ r2 -> t1 = t2 /\ r1 = r2.
Proof.
  induction t1 as [|a t1 IH]; intros t2 r1 r2 F1 F2 S1 S2 E.
  - destruct t2 as [|b t2]; [split; [reflexivity|exact E]|]. exfalso. cbn in E. subst r1. apply stop_num in S1. cbn in F2. apply andb_prop in F2 as [F2 _]. congruence.
  - destruct t2 as [|b t2].
    + exfalso. cbn in E. subst r2. apply stop_num in S2. cbn in F1. apply andb_prop in F1 as [F1 _]. congruence.
    + cbn in E, F1, F2. apply andb_prop in F1 as [_ F1]. apply andb_prop in F2 as [_ F2]. injection E as -> E.
      destruct (IH t2 r1 r2 F1 F2 S1 S2 E) as [-> ->]. auto.
Qed.

Lemma digit_numchar t : forallb is_digit t = true -> forallb numchar t = true.
Proof.
  intros H. apply forallb_forall. intros c C. pose proof (proj1 (forallb_forall _ _) H c C) as D. unfold is_digit in D. unfold numchar.
  rewrite D. reflexivity.
Qed.
Lemma digit_nopoint t : forallb is_digit t = true -> existsb (fun c => (c =? 46) || (c =? 101)) t = false.
Proof.
  intros H. destruct (existsb _ t) eqn:E; [|reflexivity]. apply existsb_exists in E as (c & C & D).
  pose proof (proj1 (forallb_forall _ _) H c C) as F. unfold is_digit in F. lia.
Qed.
Lemma str_nat_digits n : 0 <= n -> forallb is_digit (str_nat n) = true.
Proof. intros H. now apply dec_digits_digits. Qed.
Lemma str_nat_nonempty n : 0 <= n -> exists c r, str_nat n = c :: r.
Proof.
  intros H. unfold str_nat. destruct (Z.eq_dec n 0) as [-> | Hz]; [eexists; eexists; reflexivity|].
  destruct (dec_digits_first (S (Z.to_nat n)) n) as (d & r & E & _); [lia|]. eauto.
Qed.
Lemma str_int_num i : forallb numchar (str_int i) = true.
Proof.
  unfold str_int. destruct (Z.ltb_spec i 0); cbn [forallb]; [change (numchar 45) with true; cbn [andb]|];
    apply digit_numchar, str_nat_digits; lia.
Qed.
Lemma str_int_nopoint i : existsb (fun c => (c =? 46) || (c =? 101)) (str_int i) = false.
Proof.
  unfold str_int. destruct (Z.ltb_spec i 0); cbn [existsb orb Z.eqb]; [change ((45 =? 46) || (45 =? 101)) with false; cbn [orb]|]; apply digit_nopoint, str_nat_digits; lia.
Qed.
Lemma str_int_first i : exists c r, str_int i = c :: r /\ (48 <= c <= 57 \/ c = 45).
Proof.
  unfold str_int. destruct (Z.ltb_spec i 0); [eexists; eexists; split; [reflexivity|now right]|].
  destruct (str_nat_nonempty i ltac:(lia)) as (c & r & E). exists c, r. split; [exact E|].
  pose proof (str_nat_digits i ltac:(lia)) as D. rewrite E in D. cbn in D. apply andb_prop in D as [D _]. unfold is_digit in D. left. lia.
Qed.
Lemma str_int_inj i j : str_int i = str_int j -> i = j.
Proof.
  unfold str_int. destruct (Z.ltb_spec i 0), (Z.ltb_spec j 0); intros E.
  - injection E as E. apply str_nat_inj in E; lia.
  - exfalso. pose proof (str_nat_digits j ltac:(lia)) as D. rewrite <- E in D. discriminate.
  - exfalso. pose proof (str_nat_digits i ltac:(lia)) as D. rewrite E in D. discriminate.
  - apply str_nat_inj in E; lia.
Qed.

(** Strings end at their closing quote. *)
Lemma hex_digit_inj a b : 0 <= a < 16 -> 0 <= b < 16 -> hex_digit a = hex_digit b -> a = b.
Proof. unfold hex_digit. intros A B. destruct (Z.ltb_spec a 10), (Z.ltb_spec b 10); lia. Qed.
Ltac Zify.zify_post_hook ::= Z.to_euclidean_division_equations.
Lemma esc_cases c : 0 <= c -> (exists d r, esc c = 92 :: d :: r /\ (c = 34 \/ c = 92 \/ c < 32)) \/ (esc c = [c] /\ c <> 34 /\ c <> 92 /\ 32 <= c).
Proof.
  intros H. unfold esc. 
  repeat match goal with |- context [if ?c =? ?n then _ else _] => destruct (Z.eqb_spec c n); [left; subst; eexists; eexists; split; [reflexivity|lia]|] end.
  destruct (Z.ltb_spec c 32); [left; eexists; eexists; split; [reflexivity|lia]|right; auto].
Qed.
Lemma esc_inj a b x y : 0 <= a -> 0 <= b -> esc a ++ x = esc b ++ y -> a = b /\ x = y.
Proof.
  intros A B. unfold esc.
  repeat match goal with |- context [if a =? ?n then _ else _] => destruct (Z.eqb_spec a n); [subst a|] end;
  repeat match goal with |- context [if b =? ?n then _ else _] => destruct (Z.eqb_spec b n); [subst b|] end;
  try (destruct (Z.ltb_spec a 32)); try (destruct (Z.ltb_spec b 32)); cbn [app]; intros E; try discriminate E;
  try (injection E; intros; subst; solve [auto | lia | split; [lia | auto]]).
  - injection E as E1 E2 E3. apply hex_digit_inj in E1; [|lia|lia]. apply hex_digit_inj in E2; [|lia|lia]. split; [|exact E3].
    pose proof (Z.div_mod a 16 ltac:(lia)). pose proof (Z.div_mod b 16 ltac:(lia)). lia.
Qed.
Lemma esc_quote a x y : 0 <= a -> esc a ++ x = 34 :: y -> False.
Proof.
  intros A E. destruct (esc_cases a A) as [(d & r & Q & _) | (Q & H & _)]; rewrite Q in E; cbn in E; injection E; intros; subst; try discriminate; try congruence.
Qed.
Lemma jstr_split : forall s1 s2 r1 r2, str_ok s1 = true -> str_ok s2 = true ->
  flat_map esc s1 ++ 34 :: r1 = flat_map esc s2 ++ 34 :: r2 -> s1 = s2 /\ r1 = r2.
Proof.
  induction s1 as [|a s1 IH]; intros s2 r1 r2 O1 O2 E.
  - destruct s2 as [|b s2]; cbn in E; [injection E as ->; auto|]. exfalso. cbn in O2. apply andb_prop in O2 as [O2 _].
    rewrite <- app_assoc in E. apply (esc_quote b (flat_map esc s2 ++ 34 :: r2) r1); [lia|now symmetry].
  - cbn in O1. apply andb_prop in O1 as [A O1]. destruct s2 as [|b s2].
    + exfalso. cbn in E. rewrite <- app_assoc in E. apply (esc_quote a (flat_map esc s1 ++ 34 :: r1) r2); [lia|exact E].
    + cbn in O2. apply andb_prop in O2 as [B O2]. cbn [flat_map] in E. rewrite <- !app_assoc in E. apply esc_inj in E as [-> E]; [|lia|lia].
      destruct (IH s2 r1 r2 O1 O2 E) as [-> ->]. auto.
Qed.
Lemma jstr_app s r : jstr s ++ r = 34 :: flat_map esc s ++ 34 :: r.
Proof. unfold jstr. cbn. now rewrite <- app_assoc. Qed.
Lemma jstr_inj s1 s2 r1 r2 : str_ok s1 = true -> str_ok s2 = true -> jstr s1 ++ r1 = jstr s2 ++ r2 -> s1 = s2 /\ r1 = r2.
Proof. rewrite !jstr_app. intros O1 O2 E. injection E as E. now apply jstr_split. Qed.

(** The first character says which kind of value it is. *)
Definition kind (j : json) : Z :=
  match j with JNull => 0 | JBool true => 1 | JBool false => 2 | JInt _ | JFloat _ => 3 | JStr _ => 4 | JArr _ => 5 | JObj _ => 6 end.
Definition kind_of_char (c : Z) : Z :=
  if c =? 110 then 0 else if c =? 116 then 1 else if c =? 102 then 2 else if c =? 34 then 4 else if c =? 91 then 5 else if c =? 123 then 6 else 3.
Lemma first_kind j : jwf j = true -> exists c r, jtext j = c :: r /\ kind_of_char c = kind j.
Proof.
  destruct j as [|[]|i|t|s|l|l]; intros W; try (eexists; eexists; split; reflexivity).
  - destruct (str_int_first i) as (c & r & E & C). exists c, r. split; [exact E|]. cbn [kind]. unfold kind_of_char.
    repeat match goal with |- context [if ?c =? ?n then _ else _] => destruct (Z.eqb_spec c n); [lia|] end. reflexivity.
  - cbn [jwf] in W. unfold float_text in W. destruct t as [|c t]; [discriminate|]. exists c, t. split; [reflexivity|].
    apply andb_prop in W as [W _]. apply andb_prop in W as [W _]. cbn [kind]. unfold kind_of_char.
    repeat match goal with |- context [if ?c =? ?n then _ else _] => destruct (Z.eqb_spec c n); [lia|] end. reflexivity.
Qed.

Lemma first_not_stop j r : jwf j = true -> stop (jtext j ++ r) -> False.
Proof.
  intros W S. destruct (first_kind j W) as (c & t & E & K). rewrite E in S. cbn in S.
  destruct S as [-> | [-> | ->]]; cbn in K; destruct j as [|[]|i|t'|s|l|l]; try discriminate K.
  all: try (destruct (str_int_first i) as (c & u & E' & C); cbn [jtext] in E; rewrite E' in E; injection E; intros; lia).
  all: cbn [jtext] in E; subst t'; cbn [jwf] in W; unfold float_text in W; cbn in W; discriminate W.
Qed.

Definition inj_at (j : json) : Prop := forall j2 r1 r2, jwf j = true -> jwf j2 = true -> stop r1 -> stop r2 ->
  jtext j ++ r1 = jtext j2 ++ r2 -> j = j2 /\ r1 = r2.

Lemma join_cons a b r : join (a :: b :: r) = a ++ 44 :: join (b :: r).
Proof. reflexivity. Qed.

Lemma arr_inj : forall l, Forall inj_at l -> forall l2 r1 r2, forallb jwf l = true -> forallb jwf l2 = true ->
  join (map jtext l) ++ 93 :: r1 = join (map jtext l2) ++ 93 :: r2 -> l = l2 /\ r1 = r2.
Proof.
  induction l as [|a l IH]; intros F l2 r1 r2 W1 W2 E.
  - destruct l2 as [|b l2]; [cbn in E; injection E as ->; auto|]. exfalso. cbn [forallb] in W2. apply andb_prop in W2 as [W2 _].
    assert (Q : exists x, join (map jtext (b :: l2)) ++ 93 :: r2 = jtext b ++ x).
    { destruct l2 as [|b' l2]; [eexists; reflexivity|]. cbn [map]. rewrite join_cons, <- app_assoc. eexists. reflexivity. }
    destruct Q as [x Q]. rewrite Q in E. apply (first_not_stop b x W2). rewrite <- E. cbn. auto.
  - inversion F as [|? ? Fa Fl]; subst. cbn [forallb] in W1. apply andb_prop in W1 as [Wa W1]. destruct l2 as [|b l2].
    + exfalso. assert (Q : exists x, join (map jtext (a :: l)) ++ 93 :: r1 = jtext a ++ x).
      { destruct l as [|b' l]; [eexists; reflexivity|]. cbn [map]. rewrite join_cons, <- app_assoc. eexists. reflexivity. }
      destruct Q as [x Q]. rewrite Q in E. apply (first_not_stop a x Wa). rewrite E. cbn. auto.
    + cbn [forallb] in W2. apply andb_prop in W2 as [Wb W2].
      destruct l as [|a' l], l2 as [|b' l2]; cbn [map] in E.
      * cbn [join] in E. apply (Fa b) in E as [-> E]; cbn; auto. injection E as ->. auto.
      * exfalso. rewrite join_cons in E. cbn [join] in E. rewrite <- app_assoc in E. apply (Fa b) in E as [_ E]; cbn; auto. discriminate.
      * exfalso. rewrite join_cons in E. cbn [join] in E. rewrite <- app_assoc in E. apply (Fa b) in E as [_ E]; cbn; auto. discriminate.
      * rewrite !join_cons, <- !app_assoc in E. apply (Fa b) in E as [-> E]; [|auto|auto|cbn; auto|cbn; auto].
        cbn [app] in E. injection E as E. destruct (IH Fl (b' :: l2) r1 r2 W1 W2 E) as [-> ->]. auto.
Qed.

Definition ent (e : bytes * json) : bytes := jstr (fst e) ++ 58 :: jtext (snd e).
Lemma ent_inj e : inj_at (snd e) -> forall e2 r1 r2, str_ok (fst e) && jwf (snd e) = true -> str_ok (fst e2) && jwf (snd e2) = true ->
  stop r1 -> stop r2 -> ent e ++ r1 = ent e2 ++ r2 -> e = e2 /\ r1 = r2.
Proof.
  intros F e2 r1 r2 W1 W2 S1 S2 E. destruct e as [k v], e2 as [k2 v2]. cbn [fst snd] in *. unfold ent in E. cbn [fst snd] in E.
  apply andb_prop in W1 as [K1 V1]. apply andb_prop in W2 as [K2 V2]. rewrite <- !app_assoc in E. apply jstr_inj in E as [-> E]; [|assumption|assumption].
  cbn [app] in E. injection E as E. apply F in E as [-> ->]; auto.
Qed.
Lemma ent_not_stop e r : stop (ent e ++ r) -> False.
Proof. unfold ent. rewrite <- app_assoc, jstr_app. cbn. lia. Qed.
Lemma obj_inj : forall l, Forall (fun e => inj_at (snd e)) l -> forall l2 r1 r2,
  forallb (fun e => str_ok (fst e) && jwf (snd e)) l = true -> forallb (fun e => str_ok (fst e) && jwf (snd e)) l2 = true ->
  join (map ent l) ++ 125 :: r1 = join (map ent l2) ++ 125 :: r2 -> l = l2 /\ r1 = r2.
Proof.
  induction l as [|a l IH]; intros F l2 r1 r2 W1 W2 E.
  - destruct l2 as [|b l2]; [cbn in E; injection E as ->; auto|]. exfalso. cbn [forallb] in W2. apply andb_prop in W2 as [W2 _].
    assert (Q : exists x, join (map ent (b :: l2)) ++ 125 :: r2 = ent b ++ x).
    { destruct l2 as [|b' l2]; [eexists; reflexivity|]. cbn [map]. rewrite join_cons, <- app_assoc. eexists. reflexivity. }
    destruct Q as [x Q]. rewrite Q in E. apply (ent_not_stop b x). rewrite <- E. cbn. auto.
  - inversion F as [|? ? Fa Fl]; subst. cbn [forallb] in W1. apply andb_prop in W1 as [Wa W1]. destruct l2 as [|b l2].
    + exfalso. assert (Q : exists x, join (map ent (a :: l)) ++ 125 :: r1 = ent a ++ x).
      { destruct l as [|b' l]; [eexists; reflexivity|]. cbn [map]. rewrite join_cons, <- app_assoc. eexists. reflexivity. }
      destruct Q as [x Q]. rewrite Q in E. apply (ent_not_stop a x). rewrite E. cbn. auto.
    + cbn [forallb] in W2. apply andb_prop in W2 as [Wb W2].
      destruct l as [|a' l], l2 as [|b' l2]; cbn [map] in E.
      * cbn [join] in E. apply (ent_inj a Fa b) in E as [-> E]; cbn; auto. injection E as ->. auto.
      * exfalso. rewrite join_cons in E. cbn [join] in E. rewrite <- app_assoc in E. apply (ent_inj a Fa b) in E as [_ E]; cbn; auto. discriminate.
      * exfalso. rewrite join_cons in E. cbn [join] in E. rewrite <- app_assoc in E. apply (ent_inj a Fa b) in E as [_ E]; cbn; auto. discriminate.
      * rewrite !join_cons, <- !app_assoc in E. apply (ent_inj a Fa b) in E as [-> E]; [|auto|auto|cbn; auto|cbn; auto].
        cbn [app] in E. injection E as E. destruct (IH Fl (b' :: l2) r1 r2 W1 W2 E) as [-> ->]. auto.
Qed.

Lemma float_num t : float_text t = true -> forallb numchar t = true /\ existsb (fun c => (c =? 46) || (c =? 101)) t = true.
Proof. unfold float_text. intros H. apply andb_prop in H as [H B]. apply andb_prop in H as [_ A]. auto. Qed.

Theorem jtext_inj : forall j, inj_at j.
Proof.
  induction j as [|b|i|t|s|l IH|l IH] using json_ind'; intros j2 r1 r2 W1 W2 S1 S2 E;
  (assert (K : exists c x y, jtext j2 = c :: x /\ kind_of_char c = kind j2 /\ y = x) by (destruct (first_kind j2 W2) as (c & x & A & B); eauto 6));
  destruct K as (c & x & y & A & K & _);
  match goal with _ : jtext ?j ++ _ = _ |- _ => destruct (first_kind j W1) as (c' & x' & A' & K') end;
  (assert (c' = c) as -> by (rewrite A, A' in E; cbn in E; now injection E)); rewrite K' in K; clear A A' K'.
  - destruct j2 as [|[]|?|?|?|?|?]; try discriminate K. cbn in E. injection E as ->. auto.
  - destruct b, j2 as [|[]|?|?|?|?|?]; try discriminate K; cbn in E; injection E as ->; auto.
  - destruct j2 as [|[]|i2|t2|?|?|?]; try discriminate K; cbn [jtext] in E.
    + apply munch in E as [E ->]; auto using str_int_num. apply str_int_inj in E as ->. auto.
    + exfalso. cbn [jwf] in W2. destruct (float_num t2 W2) as [N P]. apply munch in E as [E _]; auto using str_int_num.
      rewrite <- E, str_int_nopoint in P. discriminate.
  - cbn [jwf] in W1. destruct (float_num t W1) as [N P]. destruct j2 as [|[]|i2|t2|?|?|?]; try discriminate K; cbn [jtext] in E.
    + exfalso. apply munch in E as [E _]; auto using str_int_num. rewrite E, str_int_nopoint in P. discriminate.
    + cbn [jwf] in W2. destruct (float_num t2 W2) as [N2 P2]. apply munch in E as [-> ->]; auto.
  - destruct j2 as [|[]|?|?|s2|?|?]; try discriminate K. cbn [jtext] in E. apply jstr_inj in E as [-> ->]; auto.
  - destruct j2 as [|[]|?|?|?|l2|?]; try discriminate K. cbn [jtext] in E. cbn [app] in E. injection E as E. rewrite <- !app_assoc in E. cbn [app] in E.
    apply (arr_inj l IH l2) in E as [-> ->]; auto.
  - destruct j2 as [|[]|?|?|?|?|l2]; try discriminate K. cbn [jtext] in E. cbn [app] in E. injection E as E. rewrite <- !app_assoc in E. cbn [app] in E.
    apply (obj_inj l IH l2) in E as [-> ->]; auto.
Qed.

(** Sorting keeps values well-formed. *)
Lemma insert_key_wf e l : str_ok (fst e) && jwf (snd e) = true -> forallb (fun e => str_ok (fst e) && jwf (snd e)) l = true ->
  forallb (fun e => str_ok (fst e) && jwf (snd e)) (insert_key e l) = true.
Proof.
  intros A. induction l as [|f l IH]; intros B; cbn [insert_key forallb] in *; [now rewrite A|].
  apply andb_prop in B as [B1 B2]. destruct (key_le _ _); cbn [forallb]; rewrite ?A, ?B1, ?B2; cbn; auto.
Qed.
Lemma sorted_wf : forall j, jwf j = true -> jwf (sorted_json j) = true.
Proof.
  induction j as [|b|i|t|s|l IH|l IH] using json_ind'; intros W; try exact W; cbn [sorted_json jwf] in *.
  - induction l as [|a l IHl]; [reflexivity|]. inversion IH; subst. cbn [map forallb] in *. apply andb_prop in W as [A B]. rewrite H1 by exact A. cbn. auto.
  - unfold sort_keys. induction l as [|a l IHl]; [reflexivity|]. inversion IH; subst. cbn [map forallb fold_right] in *. apply andb_prop in W as [A B].
    apply andb_prop in A as [A1 A2]. apply insert_key_wf; [cbn [fst snd]; rewrite A1, H1 by exact A2; reflexivity|auto].
Qed.

Theorem dumps_inj : forall j1 j2, jwf j1 = true -> jwf j2 = true -> dumps j1 = dumps j2 -> sorted_json j1 = sorted_json j2.
Proof.
  intros j1 j2 W1 W2 E. unfold dumps in E. destruct (jtext_inj (sorted_json j1) (sorted_json j2) [] []) as [A _]; cbn; auto using sorted_wf.
  now rewrite !app_nil_r.
Qed.
