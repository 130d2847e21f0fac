(** Regrouping: same text; same meaning in sums and products. *)
From Coq Require Import ZArith List Bool String Lia.
From Verif Require Import Base BaseFacts CommonModel RecordsModel Action14Model Action14Proofs
  VA2Model VA2Vars SpecVA2 VA2Simplify ParserModel SpecParser LexProofs ParserProofs.
Import ListNotations.
Open Scope string_scope.
Open Scope list_scope.
Open Scope Z_scope.

Definition movers : list Z := [0; 1; 6; 7; 10; -1; -2; -3; -4; -5; -6].
Lemma line_movers : forall op l, line_of op = Some l -> In op movers.
Proof.
  intros op l H. unfold line_of in H.
  destruct (existsb (Z.eqb op) [0; 1]) eqn:E1.
  { apply existsb_exists in E1 as (o & I & E). apply Z.eqb_eq in E. subst o. cbn in *. tauto. }
  destruct (existsb (Z.eqb op) [6; 7; 10]) eqn:E2.
  { apply existsb_exists in E2 as (o & I & E). apply Z.eqb_eq in E. subst o. cbn in *. tauto. }
  destruct (existsb (Z.eqb op) [-1; -2; -3; -4; -5; -6]) eqn:E3; [|discriminate].
  apply existsb_exists in E3 as (o & I & E). apply Z.eqb_eq in E. subst o. cbn in *. tauto.
Qed.
Definition mcheck (op op' : Z) : bool :=
  if moves op op' then
    match operators op, operators op' with
    | Some (Infix _, prio, false), Some (Infix _, prio', _) =>
        (prio =? prio') && existsb (Z.eqb op) plist && existsb (Z.eqb op') plist
        && negb ((op =? 14) || (op =? 16)) && negb ((op' =? 14) || (op' =? 16))
        && match bit_level op, bit_level op' with None, None => true | _, _ => false end
    | _, _ => false
    end
  else true.
Lemma mcheck_all : forallb (fun op => forallb (mcheck op) movers) movers = true.
Proof. reflexivity. Qed.
Lemma moves_facts : forall op op', moves op op' = true ->
  exists s s' prio br', operators op = Some (Infix s, prio, false) /\ operators op' = Some (Infix s', prio, br') /\
    existsb (Z.eqb op) plist = true /\ existsb (Z.eqb op') plist = true /\
    ((op =? 14) || (op =? 16)) = false /\ ((op' =? 14) || (op' =? 16)) = false /\ bit_level op = None /\ bit_level op' = None.
Proof.
  intros op op' M. assert (I : In op movers /\ In op' movers).
  { unfold moves in M. apply andb_true_iff in M as [_ M].
    destruct (line_of op) eqn:E; [|discriminate]. destruct (line_of op') eqn:E'; [|discriminate]. eauto using line_movers. }
  destruct I as [I I']. pose proof mcheck_all as A. rewrite forallb_forall in A. specialize (A op I). rewrite forallb_forall in A.
  specialize (A op' I'). unfold mcheck in A. rewrite M in A.
  destruct (operators op) as [[[[s|s|s] prio] [|]]|]; try discriminate.
  destruct (operators op') as [[[[s'|s'|s'] prio'] br']|]; try discriminate.
  rewrite !andb_true_iff in A. destruct A as [[[[[A1 A2] A3] A4] A5] A6]. apply Z.eqb_eq in A1. subst prio'.
  exists s, s', prio, br'. apply negb_true_iff in A4, A5. destruct (bit_level op); [discriminate|]. destruct (bit_level op'); [discriminate|].
  repeat split; assumption.
Qed.

Lemma graft_tk : forall op a b p, tk (graft op a b) p = tk (NExpr op a b) p.
Proof.
  intros op a. induction b as [op' b1 IH1 b2 _| | | | | | | | | |]; intros p; try reflexivity.
  cbn [graft]. destruct (moves op op') eqn:M; [|reflexivity].
  destruct (moves_facts op op' M) as (s & s' & prio & br' & O & O' & _). cbn [tk]. rewrite O, O'. rewrite IH1. cbn [tk]. rewrite O.
  destruct (Z.leb_spec prio (prio - 1)); [lia|]. cbn [tbr]. rewrite <- !app_assoc. reflexivity.
Qed.
(** The tokens depend on the operands only through their tokens, except for
    the register of a store. *)
Lemma regroup_tk : forall e p, tk (regroup e) p = tk e p.
Proof.
  induction e as [op a IHa b IHb|x e IH|v|x|x q IH|var sh mk adj|var sh mk adj q IH|r IH|r IH|n|x]; intros p; cbn [regroup]; try reflexivity.
  - rewrite graft_tk. cbn [tk]. destruct (operators op) as [[[[s|s|s] prio] br]|]; try reflexivity; rewrite !IHa, !IHb; reflexivity.
  - cbn [tk]. rewrite IH. reflexivity.
  - cbn [tk]. rewrite IH. reflexivity.
  - cbn [tk]. rewrite IH. reflexivity.
Qed.

Lemma graft_val : forall op a b v, graft op a b <> NValue v.
Proof. intros op a [op' b1 b2| |v0| | | | | | | |] v; cbn [graft]; try discriminate. destruct (moves op op'); discriminate. Qed.
Lemma regroup_val : forall e v, regroup e = NValue v -> e = NValue v.
Proof. intros [op a b| |v0| | | | | | | |] v H; cbn [regroup] in H; try discriminate; try exact H. exfalso. exact (graft_val _ _ _ _ H). Qed.

Lemma graft_printable : forall op a b, printable (NExpr op a b) = true -> printable (graft op a b) = true.
Proof.
  intros op a. induction b as [op' b1 IH1 b2 _| | | | | | | | | |]; intros P; try exact P.
  cbn [graft]. destruct (moves op op') eqn:M; [|exact P].
  destruct (moves_facts op op' M) as (s & s' & prio & br' & O & O' & L & L' & N & N' & _).
  cbn [printable] in P. rewrite N in P. apply andb_true_iff in P as [P Pb]. apply andb_true_iff in P as [_ Pa].
  rewrite N' in Pb. apply andb_true_iff in Pb as [Pb P2]. apply andb_true_iff in Pb as [_ P1].
  cbn [printable]. rewrite N'. rewrite IH1; [fold plist; rewrite L', P2; reflexivity|].
  cbn [printable]. rewrite N. fold plist. rewrite L, Pa, P1. reflexivity.
Qed.
Lemma regroup_printable : forall e, printable e = true -> printable (regroup e) = true.
Proof.
  induction e as [op a IHa b IHb|x e IH|v|x|x q IH|var sh mk adj|var sh mk adj q IH|r IH|r IH|n|x]; intros P; cbn [regroup]; try exact P.
  - apply graft_printable. cbn [printable] in *. destruct ((op =? 14) || (op =? 16)).
    + apply andb_true_iff in P as [Pa Pb]. rewrite (IHa Pa). destruct b; try discriminate. exact Pb.
    + apply andb_true_iff in P as [P Pb]. apply andb_true_iff in P as [Po Pa]. rewrite Po, (IHa Pa), (IHb Pb). reflexivity.
  - cbn [printable] in *. apply andb_true_iff in P as [P Pq]. rewrite P, (IH Pq). reflexivity.
  - assert (D : (exists v, r = NValue v) \/ printable r = true) by (destruct r; try (right; exact P); left; eauto).
    destruct D as [[v ->]|D]; [exact P|]. pose proof (IH D) as Q.
    cbn [printable]. destruct (regroup r) eqn:E; try exact Q. apply regroup_val in E. subst r. exact P.
  - cbn [printable] in *. exact (IH P).
Qed.

Definition head_bit (e : node) : option Z := match e with NExpr op _ _ => bit_level op | _ => None end.
Lemma graft_head : forall op a b, head_bit (graft op a b) = bit_level op.
Proof.
  intros op a [op' b1 b2| | | | | | | | | |]; try reflexivity. cbn [graft]. destruct (moves op op') eqn:M; [|reflexivity].
  destruct (moves_facts op op' M) as (s & s' & prio & br' & O & O' & L & L' & N & N' & B & B'). cbn [head_bit]. rewrite B, B'. reflexivity.
Qed.
Lemma regroup_head : forall e, head_bit (regroup e) = head_bit e.
Proof. intros [op a b| | | | | | | | | |]; cbn [regroup]; try reflexivity. apply graft_head. Qed.
Definition okbit (op : Z) (a : node) : bool :=
  match bit_level op, head_bit a with Some l, Some l' => l <=? l' | _, _ => true end.
Lemma grouped_expr : forall op a b, grouped (NExpr op a b) = grouped a && grouped b && okbit op a.
Proof. intros op a b. cbn [grouped]. f_equal. unfold okbit. destruct (bit_level op); destruct a; try reflexivity. Qed.
Lemma graft_grouped : forall op a b, grouped a = true -> grouped b = true -> okbit op a = true -> grouped (graft op a b) = true.
Proof.
  intros op a. induction b as [op' b1 IH1 b2 _| | | | | | | | | |]; intros Ga Gb K; cbn [graft];
    try (rewrite grouped_expr, Ga, Gb, K; reflexivity).
  destruct (moves op op') eqn:M; [|rewrite grouped_expr, Ga, Gb, K; reflexivity].
  destruct (moves_facts op op' M) as (s & s' & prio & br' & O & O' & L & L' & N & N' & B & B').
  rewrite grouped_expr in Gb |- *. apply andb_true_iff in Gb as [Gb _]. apply andb_true_iff in Gb as [G1 G2].
  rewrite (IH1 Ga G1 K), G2. unfold okbit. rewrite B'. reflexivity.
Qed.
Lemma regroup_grouped : forall e, grouped e = true -> grouped (regroup e) = true.
Proof.
  induction e as [op a IHa b IHb|x e IH|v|x|x q IH|var sh mk adj|var sh mk adj q IH|r IH|r IH|n|x]; intros G; cbn [regroup]; try exact G;
    try exact (IH G).
  rewrite grouped_expr in G. apply andb_true_iff in G as [G K]. apply andb_true_iff in G as [Ga Gb].
  apply graft_grouped; auto. unfold okbit in *. rewrite regroup_head. exact K.
Qed.
Definition stays (op : Z) (b : node) : bool := match b with NExpr op' _ _ => negb (moves op op') | _ => true end.
Lemma graft_settled : forall op a b, settled a = true -> settled b = true -> settled (graft op a b) = true.
Proof.
  intros op a. induction b as [op' b1 IH1 b2 _| | | | | | | | | |]; intros Ta Tb; cbn [graft]; try (cbn [settled]; rewrite Ta; exact Tb || reflexivity).
  - destruct (moves op op') eqn:M.
    + cbn [settled] in Tb |- *. apply andb_true_iff in Tb as [Tb K]. apply andb_true_iff in Tb as [T1 T2].
      rewrite (IH1 Ta T1), T2, K. reflexivity.
    + cbn [settled] in *. rewrite Ta, M. cbn [andb negb]. rewrite Tb. reflexivity.
  - cbn [settled] in *. rewrite Ta, Tb. reflexivity.
  - cbn [settled] in *. rewrite Ta, Tb. reflexivity.
  - cbn [settled] in *. rewrite Ta, Tb. reflexivity.
  - cbn [settled] in *. rewrite Ta, Tb. reflexivity.
  - cbn [settled] in *. rewrite Ta, Tb. reflexivity.
Qed.
Lemma regroup_settled : forall e, settled (regroup e) = true.
Proof. induction e; cbn [regroup settled]; auto using graft_settled. Qed.
(** Settled expressions are left alone. *)
Lemma settled_regroup : forall e, settled e = true -> regroup e = e.
Proof.
  induction e as [op a IHa b IHb|x e IH|v|x|x q IH|var sh mk adj|var sh mk adj q IH|r IH|r IH|n|x]; intros T; cbn [regroup settled] in *;
    try reflexivity; try (rewrite (IH T); reflexivity).
  apply andb_true_iff in T as [T K]. apply andb_true_iff in T as [Ta Tb]. rewrite (IHa Ta), (IHb Tb).
  destruct b; try reflexivity. cbn [graft]. apply negb_true_iff in K. rewrite K. reflexivity.
Qed.

Theorem text_reads : forall hx l, forallb printable l = true -> forallb grouped l = true ->
  exists s, fmt_lines hx l = Some s /\ parse_code s = Some (map (fun e => lower (signed (regroup e))) l).
Proof.
  intros hx l P G. destruct (fmt_lines_lx hx l P) as (s & F & _ & L). exists s. split; [exact F|].
  unfold parse_code. rewrite L.
  assert (E : tk_lines l = tk_lines (map regroup l)).
  { clear. induction l as [|e [|e' l] IH]; cbn [tk_lines map] in *; [reflexivity|symmetry; apply regroup_tk|].
    rewrite regroup_tk, IH. reflexivity. }
  rewrite E, lines_parse.
  - cbn [app]. rewrite map_map. reflexivity.
  - rewrite forallb_forall in P |- *. intros x I. apply in_map_iff in I as (y & <- & I). auto using regroup_printable.
  - rewrite forallb_forall in G |- *. intros x I. apply in_map_iff in I as (y & <- & I). auto using regroup_grouped.
  - rewrite forallb_forall. intros x I. apply in_map_iff in I as (y & <- & I). apply regroup_settled.
Qed.
