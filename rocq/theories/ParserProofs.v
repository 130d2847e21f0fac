(** Parsing of the tokens of printed code. *)
From Coq Require Import ZArith List Bool String Lia.
From Verif Require Import Base BaseFacts CommonModel RecordsModel Action14Model Action14Proofs
  VA2Model VA2Vars SpecVA2 VA2Simplify ParserModel SpecParser LexProofs.
Import ListNotations.
Open Scope string_scope.
Open Scope list_scope.
Open Scope Z_scope.

Definition follow (ts : list token) : bool :=
  match ts with
  | [] => true
  | TOp _ :: _ | TRp :: _ | TRb :: _ | TComma :: _ | TNewline :: _ => true
  | _ => false
  end.
(** The pending rules all wait at precedence q. *)
Definition irr (q : Z) (st : list frame) : Prop :=
  match st with
  | FBin op _ :: _ => gprec op < q
  | FStore _ _ :: _ | FSet _ :: _ => 0 < q
  | _ => True
  end.
Lemma irr_reduce : forall q st v, irr q st -> reduce q st v = (st, v).
Proof.
  intros q [|[op a| |x|op r|x|f|f a|f a args x] st] v H; cbn [irr reduce] in *; try reflexivity.
  - destruct (Z.leb_spec q (gprec op)); [lia|reflexivity].
  - destruct (Z.leb_spec q 0); [lia|reflexivity].
  - destruct (Z.leb_spec q 0); [lia|reflexivity].
Qed.
Lemma irr_mono : forall q q' st, q <= q' -> irr q st -> irr q' st.
Proof. intros q q' [|[op a| |x|op r|x|f|f a|f a args x] st] Hq H; cbn [irr] in *; try exact I; lia. Qed.

(** How tightly the printed form holds together. *)
Definition lv (e : node) (p : Z) : Z :=
  match e with
  | NExpr op _ _ =>
    match operators op with
    | Some (Infix _, prio, _) => if prio <=? p then 8 else gprec op
    | Some (Store _, prio, _) => if prio <=? p then 8 else 0
    | _ => 8
    end
  | _ => 8
  end.

(** Tokens ts are read as the expression w. *)
Definition reads (ts : list token) (l : Z) (w : node) : Prop :=
  forall rest st acc, follow rest = true -> (l = 0 \/ irr l st) ->
  exists fs v, parse (ts ++ rest) st None acc = parse rest (fs ++ st) (Some v) acc /\
    forall q, q <= l -> reduce q (fs ++ st) v = reduce q st w.
Definition atom (ts : list token) (w : node) : Prop :=
  forall rest st acc, follow rest = true -> parse (ts ++ rest) st None acc = parse rest st (Some w) acc.
Lemma atom_reads : forall ts l w, atom ts w -> reads ts l w.
Proof. intros ts l w H rest st acc F _. exists [], w. split; [apply H, F|reflexivity]. Qed.

Lemma paren_atom : forall ts l w, 0 <= l -> reads ts l w -> atom (TLp :: ts ++ [TRp]) w.
Proof.
  intros ts l w Hl H rest st acc F. cbn [app parse]. rewrite <- app_assoc.
  destruct (H ([TRp] ++ rest) (FParen :: st) acc eq_refl (or_intror I)) as (fs & v & P & R).
  rewrite P. cbn [app parse]. rewrite R by lia. reflexivity.
Qed.
Lemma num_parse : forall i rest st acc, parse (numtok i ++ rest) st None acc = parse rest st (Some (NValue i)) acc.
Proof.
  intros i rest st acc. unfold numtok. destruct (i <? 0); [|reflexivity]. cbn [app parse]. rewrite Z.eqb_refl, Z.opp_involutive. reflexivity.
Qed.
Lemma num_atom : forall i, atom (numtok i) (NValue i).
Proof. intros i rest st acc _. apply num_parse. Qed.
Lemma name_parse : forall x rest st acc, follow rest = true ->
  parse (TName x :: rest) st None acc = parse rest st (Some (NVar x)) acc.
Proof. intros x [|[] rest] st acc F; try discriminate F; reflexivity. Qed.

Lemma index_parse : forall x ts l w e rest st acc, 0 <= l -> reads ts l w -> storage x w = Some e -> follow rest = true ->
  parse ([TName x; TLb] ++ ts ++ [TRb] ++ rest) st None acc = parse rest st (Some e) acc.
Proof.
  intros x ts l w e rest st acc Hl H S F. cbn [app parse].
  destruct (H (TRb :: rest) (FIndex x :: st) acc eq_refl (or_intror I)) as (fs & v & P & R).
  transitivity (parse (TRb :: rest) (fs ++ FIndex x :: st) (Some v) acc); [exact P|]. cbn [parse]. rewrite R by lia. cbn [reduce]. rewrite S.
  destruct rest as [|[] rest]; try discriminate F; reflexivity.
Qed.

(** What a function argument looks like. *)
Definition arg_shape (ts : list token) : Prop :=
  (exists n, ts = [TNum n]) \/ (exists n, ts = [TOp OP_SUB; TNum n]) \/ (exists x, ts = [TName x]) \/
  (exists x r, ts = TName x :: TLp :: r) \/ (exists x r, ts = TName x :: TLb :: r) \/ (exists r, ts = TLp :: r).
Lemma tk_shape : forall e p, printable e = true -> 6 <= p -> arg_shape (tk e p).
Proof.
  intros [op a b|x e|v|x|x q|var sh mk adj|var sh mk adj q|r|r|n|x] p P Hp; cbn [printable] in P; unfold arg_shape; cbn [tk]; try discriminate;
    try solve [do 3 right; left; do 2 eexists; reflexivity]; try solve [do 4 right; left; do 2 eexists; reflexivity].
  - destruct ((op =? 14) || (op =? 16)) eqn:E.
    + do 5 right. apply orb_true_iff in E as [E|E]; apply Z.eqb_eq in E; subst op; cbn [operators];
        destruct (Z.leb_spec 2 p); try lia; eexists; reflexivity.
    + apply andb_true_iff in P as [P Pb]. apply andb_true_iff in P as [Po Pa].
      destruct (infix_printable op Po) as (_ & _ & _ & _ & form & prio & br & Ho & Hf). rewrite Ho.
      destruct form as [i|f|]; [| |contradiction].
      * do 5 right. destruct (Z.leb_spec prio p); [|lia]. eexists; reflexivity.
      * destruct (prio <=? p); [do 5 right|do 3 right; left]; repeat eexists; reflexivity.
  - unfold numtok. destruct (utoi32 v <? 0); [right; left|left]; eexists; reflexivity.
  - do 2 right; left. eexists; reflexivity.
Qed.
Lemma func_parse : forall f ta la wa tb lb wb e rest st acc, 0 <= la -> 0 <= lb ->
  arg_shape ta -> arg_shape tb -> reads ta la wa -> reads tb lb wb -> call_2 f wa wb = Some e ->
  parse ([TName f; TLp] ++ ta ++ [TComma] ++ tb ++ [TRp] ++ rest) st None acc = parse rest st (Some e) acc.
Proof.
  intros f ta la wa tb lb wb e rest st acc Hla Hlb Sa Sb Ra Rb C.
  assert (E1 : parse ([TName f; TLp] ++ ta ++ [TComma] ++ tb ++ [TRp] ++ rest) st None acc =
     parse (ta ++ [TComma] ++ tb ++ [TRp] ++ rest) (FArg1 f :: st) None acc).
  { destruct Sa as [[n ->]|[[n ->]|[[x ->]|[(x & r & ->)|[(x & r & ->)|[r ->]]]]]]; reflexivity. }
  rewrite E1. destruct (Ra ([TComma] ++ tb ++ [TRp] ++ rest) (FArg1 f :: st) acc eq_refl (or_intror I)) as (fs & v & P & R).
  rewrite P. 
  assert (E2 : parse ([TComma] ++ tb ++ [TRp] ++ rest) (fs ++ FArg1 f :: st) (Some v) acc =
     parse (tb ++ [TRp] ++ rest) (FArg2 f wa :: st) None acc).
  { cbn [app parse]. rewrite R by lia. cbn [reduce].
    destruct Sb as [[n ->]|[[n ->]|[[x ->]|[(x & r & ->)|[(x & r & ->)|[r ->]]]]]]; reflexivity. }
  rewrite E2. destruct (Rb ([TRp] ++ rest) (FArg2 f wa :: st) acc eq_refl (or_intror I)) as (fs2 & v2 & P2 & R2).
  rewrite P2. cbn [app parse]. rewrite R2 by lia. cbn [reduce]. rewrite C. reflexivity.
Qed.

(** The named arguments of var(..). *)
Lemma tail_parse : forall f a args x w sh mk adj rest st acc e, adjustment adj = true ->
  var_call f a (args ++ [(x, w); (nm "shift", NValue sh); (nm "and", NValue mk)] ++
    match adj with None => [] | Some (t, add, dm) => [(nm "add", NValue add); ((if t =? 1 then nm "div" else nm "mod"), NValue dm)] end) = Some e ->
  parse (tailtok sh mk adj ++ rest) (FNamed f a args x :: st) (Some w) acc = parse rest st (Some e) acc.
Proof.
  intros f a args x w sh mk adj rest st acc e Hj V. unfold tailtok. rewrite <- !app_assoc. cbn [app parse reduce].
  rewrite num_parse. cbn [app parse reduce].
  destruct adj as [[[t add] dm]|]; cbn [adjustment adjtok] in *.
  - destruct (t =? 1); [|destruct (t =? 2); [|discriminate]]; rewrite <- !app_assoc; cbn [app parse reduce]; rewrite num_parse;
      cbn [app parse reduce]; rewrite num_parse; cbn [app parse reduce]; rewrite <- !app_assoc; cbn [app];
      cbn [app] in V; (destruct args as [|a0 args]; cbn [close_named app] in *; [rewrite ?V|rewrite <- ?app_assoc; cbn [app]; rewrite ?V]; reflexivity).
  - cbn [app parse reduce]. rewrite <- !app_assoc; cbn [app]. cbn [app] in V.
    destruct args as [|a0 args]; cbn [close_named app] in *; [rewrite ?V|rewrite <- ?app_assoc; cbn [app]; rewrite ?V]; reflexivity.
Qed.
Lemma tail_parse0 : forall f a sh mk adj rest st acc e, adjustment adj = true ->
  var_call f a ([(nm "shift", NValue sh); (nm "and", NValue mk)] ++
    match adj with None => [] | Some (t, add, dm) => [(nm "add", NValue add); ((if t =? 1 then nm "div" else nm "mod"), NValue dm)] end) = Some e ->
  parse (tailtok sh mk adj ++ rest) (FArg1 f :: st) (Some a) acc = parse rest st (Some e) acc.
Proof.
  intros f a sh mk adj rest st acc e Hj V. unfold tailtok. rewrite <- !app_assoc. cbn [app parse reduce].
  rewrite num_parse. cbn [app parse reduce].
  destruct adj as [[[t add] dm]|]; cbn [adjustment adjtok] in *.
  - destruct (t =? 1); [|destruct (t =? 2); [|discriminate]]; rewrite <- !app_assoc; cbn [app parse reduce]; rewrite num_parse;
      cbn [app parse reduce]; rewrite num_parse; cbn [app parse reduce]; cbn [close_named app] in *; rewrite V; reflexivity.
  - cbn [app parse reduce close_named] in *. rewrite V. reflexivity.
Qed.

Lemma s32_reg : forall v, register v = true -> s32 v = v.
Proof. intros v H. destruct (utoi32_reg v H) as [U W]. rewrite <- (utoi32_word v W). exact U. Qed.

Lemma func_call2 : forall op f prio br a b, operators op = Some (Func f, prio, br) -> 0 <= op -> call_2 (nm f) a b = Some (NExpr op a b).
Proof.
  intros op f prio br a b H Hop. unfold operators in H.
  repeat match type of H with
    | match ?x with _ => _ end = _ => destruct x; try discriminate H
    end; injection H as <- <- <-; try reflexivity; lia.
Qed.

Definition plist := [0; 1; 2; 3; 4; 5; 6; 7; 10; 11; 12; 13; 17; 18; 19; 20; 21; 22; -1; -2; -3; -4; -5; -6].
Definition olv (op' p : Z) : Z := lv (NExpr op' (NValue 0) (NValue 0)) p.
Definition lcheck (op op' : Z) : bool :=
  match operators op with
  | Some (Infix _, prio, br) =>
    (gprec op <? 8) && (0 <=? gprec op) &&
    ((gprec op <=? olv op' (prio - 1)) ||
     negb (match bit_level op, bit_level op' with Some l, Some l' => l <=? l' | _, _ => true end))
    && ((gprec op <? olv op' (if br then prio else prio - 1)) || moves op op')
  | _ => true
  end.
Lemma lcheck_all : forallb (fun op => forallb (lcheck op) (14 :: 16 :: plist)) plist = true.
Proof. reflexivity. Qed.
Lemma lcheck_ok : forall op op', existsb (Z.eqb op) plist = true -> existsb (Z.eqb op') (14 :: 16 :: plist) = true -> lcheck op op' = true.
Proof.
  intros op op' H H'. pose proof lcheck_all as A. rewrite forallb_forall in A.
  apply existsb_exists in H as (o & I & E). apply Z.eqb_eq in E. subst o.
  apply existsb_exists in H' as (o' & I' & E'). apply Z.eqb_eq in E'. subst o'.
  specialize (A op I). rewrite forallb_forall in A. exact (A op' I').
Qed.
Lemma func_pos : forall op f prio br, existsb (Z.eqb op) plist = true -> operators op = Some (Func f, prio, br) -> op < 0 -> False.
Proof.
  intros op f prio br H Ho L.
  assert (A : forallb (fun op => (0 <=? op) || match operators op with Some (Func _, _, _) => false | _ => true end) plist = true) by reflexivity.
  rewrite forallb_forall in A. apply existsb_exists in H as (o & I & E). apply Z.eqb_eq in E. subst o.
  specialize (A op I). rewrite Ho in A. lia.
Qed.
Lemma printable_op : forall op a b, printable (NExpr op a b) = true -> existsb (Z.eqb op) (14 :: 16 :: plist) = true.
Proof.
  intros op a b P. cbn [printable] in P. change (existsb (Z.eqb op) (14 :: 16 :: plist)) with ((op =? 14) || ((op =? 16) || existsb (Z.eqb op) plist)).
  rewrite orb_assoc. destruct ((op =? 14) || (op =? 16)); [reflexivity|].
  apply andb_true_iff in P as [P _]. apply andb_true_iff in P as [P _]. exact P.
Qed.
Lemma left_level : forall op s prio br a, existsb (Z.eqb op) plist = true -> operators op = Some (Infix s, prio, br) -> printable a = true ->
  match bit_level op, a with
  | Some l, NExpr op' _ _ => match bit_level op' with Some l' => l <=? l' | None => true end
  | _, _ => true
  end = true -> gprec op <= lv a (prio - 1).
Proof.
  intros op s prio br a Ho E P G. assert (M : gprec op < 8 /\ 0 <= gprec op).
  { pose proof (lcheck_ok op 0 Ho eq_refl) as C. unfold lcheck in C. rewrite E in C. lia. }
  destruct a; try (cbn [lv]; lia).
  pose proof (lcheck_ok op op0 Ho (printable_op _ _ _ P)) as C. unfold lcheck in C. rewrite E in C.
  change (lv (NExpr op0 a1 a2) (prio - 1)) with (olv op0 (prio - 1)).
  destruct (bit_level op); [destruct (bit_level op0)|]; try rewrite G in C; cbn [negb] in C; lia.
Qed.
Lemma right_level : forall op s prio br b, existsb (Z.eqb op) plist = true -> operators op = Some (Infix s, prio, br) -> printable b = true ->
  match b with NExpr op' _ _ => negb (moves op op') | _ => true end = true -> gprec op < lv b (if br then prio else prio - 1).
Proof.
  intros op s prio br b Ho E P G. assert (M : gprec op < 8 /\ 0 <= gprec op).
  { pose proof (lcheck_ok op 0 Ho eq_refl) as C. unfold lcheck in C. rewrite E in C. lia. }
  destruct b; try (cbn [lv]; lia).
  pose proof (lcheck_ok op op0 Ho (printable_op _ _ _ P)) as C. unfold lcheck in C. rewrite E in C.
  change (lv (NExpr op0 b1 b2) (if br then prio else prio - 1)) with (olv op0 (if br then prio else prio - 1)).
  apply negb_true_iff in G. rewrite G, orb_false_r in C. lia.
Qed.
Lemma lv_nonneg : forall e p, 0 <= lv e p.
Proof.
  intros [op a b|x e|v|x|x q|var sh mk adj|var sh mk adj q|r|r|n|x] p; cbn [lv]; try lia.
  destruct (operators op) as [[[[s|s|s] prio] br]|]; try lia; destruct (prio <=? p); try lia.
  unfold gprec. repeat match goal with |- context [if ?c then _ else _] => destruct c end; lia.
Qed.
Lemma gprec_nonneg : forall op, 0 <= gprec op.
Proof. intros op. unfold gprec. repeat match goal with |- context [if ?c then _ else _] => destruct c end; lia. Qed.

Lemma tbr_reads : forall c ts l w, 0 <= l -> reads ts l w -> reads (tbr c ts) (if c then 8 else l) w.
Proof. intros [] ts l w Hl H; [|exact H]. apply atom_reads. exact (paren_atom ts l w Hl H). Qed.
Lemma infix_reads : forall op ta la wa tb lb wb, reads ta la wa -> reads tb lb wb -> gprec op <= la -> gprec op < lb ->
  reads (ta ++ [TOp op] ++ tb) (gprec op) (mk_binop op wa wb).
Proof.
  intros op ta la wa tb lb wb Ra Rb Ha Hb rest st acc F C.
  pose proof (gprec_nonneg op) as G0.
  assert (I : irr (gprec op) st \/ gprec op = 0) by tauto.
  assert (N0 : gprec op <> 0) by (unfold gprec; repeat match goal with |- context [if ?c then _ else _] => destruct c end; lia).
  destruct I as [I|I]; [|contradiction].
  rewrite <- !app_assoc.
  destruct (Ra ([TOp op] ++ tb ++ rest) st acc eq_refl (or_intror (irr_mono _ _ _ Ha I))) as (fs & v & P & R).
  rewrite P. cbn [app parse]. rewrite R by exact Ha. rewrite (irr_reduce _ _ _ I).
  destruct (Rb rest (FBin op wa :: st) acc F (or_intror Hb)) as (fs2 & v2 & P2 & R2).
  exists (fs2 ++ [FBin op wa]), v2. rewrite <- !app_assoc. split; [exact P2|]. intros q Hq. cbn [app]. rewrite R2 by lia.
  cbn [reduce]. destruct (Z.leb_spec q (gprec op)); [reflexivity|lia].
Qed.
Lemma store_reads : forall x op v ta la wa, storage_op x = Some op -> mk_binop op wa (NValue v) = NExpr op wa (NValue v) ->
  0 <= la -> reads ta la wa ->
  reads ([TName x; TLb] ++ numtok v ++ [TRb; TAssign] ++ ta) 0 (mk_binop op wa (NValue v)).
Proof.
  intros x op v ta la wa S B Hl H rest st acc F _. rewrite <- !app_assoc. cbn [app]. cbn [parse].
  rewrite num_parse. cbn [app parse reduce const_eval]. rewrite S. cbv beta iota zeta delta [bind].
  assert (C : la = 0 \/ irr la (FStore op v :: st)) by (cbn [irr]; lia).
  destruct (H rest (FStore op v :: st) acc F C) as (fs & w & P & R). exists (fs ++ [FStore op v]), w. rewrite <- !app_assoc.
  split; [exact P|]. intros q Hq. cbn [app]. rewrite R by lia. cbn [reduce]. rewrite B. destruct (Z.leb_spec q 0); [reflexivity|lia].
Qed.

Theorem tk_reads : forall e, printable e = true -> grouped e = true -> settled e = true -> forall p, reads (tk e p) (lv e p) (lower (signed e)).
Proof.
  induction e as [op a IHa b IHb|x e IH|v|x|x q IH|var sh mk adj|var sh mk adj q IH|r IH|r IH|n|x]; intros P G T p;
    cbn [printable grouped settled] in P, G, T; cbn [tk]; try discriminate.
  - apply andb_true_iff in G as [G G3]. apply andb_true_iff in G as [Ga Gb].
    apply andb_true_iff in T as [T T3]. apply andb_true_iff in T as [Ta Tb].
    destruct ((op =? 14) || (op =? 16)) eqn:E.
    + apply andb_true_iff in P as [Pa Pb]. destruct b as [| |v| | | | | | | |]; try discriminate.
      destruct (utoi32_reg v Pb) as [U W]. specialize (IHa Pa Ga Ta 1).
      cbn [signed lower]. rewrite (s32_reg v Pb).
      apply orb_true_iff in E as [E|E]; apply Z.eqb_eq in E; subst op; cbn [operators lv tk]; rewrite U; change (2 - 1) with 1.
      * apply tbr_reads; [lia|]. apply (store_reads (nm "TEMP") 14 v _ (lv a 1)); auto using lv_nonneg.
      * apply tbr_reads; [lia|]. apply (store_reads (nm "PERM") 16 v _ (lv a 1)); auto using lv_nonneg.
    + apply andb_true_iff in P as [P Pb]. apply andb_true_iff in P as [Po Pa].
      destruct (infix_printable op Po) as (N8 & N9 & _ & _ & form & prio & br & Ho & Hf).
      cbn [lv signed lower]. rewrite Ho. destruct form as [i|f|]; [| |contradiction].
      * apply tbr_reads; [apply gprec_nonneg|].
        exact (infix_reads op _ _ _ _ _ _ (IHa Pa Ga Ta (prio - 1)) (IHb Pb Gb Tb (if br then prio else prio - 1))
                (left_level op i prio br a Po Ho Pa G3) (right_level op i prio br b Po Ho Pb T3)).
      * destruct Hf as (Hf & -> & ->). specialize (IHa Pa Ga Ta (7 - 1)). specialize (IHb Pb Gb Tb (7 - 1)).
        assert (H0 : 0 <= op).
        { destruct (Z.le_gt_cases 0 op); [assumption|exfalso]. exact (func_pos op f 7 false Po Ho H). }
        replace 8 with (if 7 <=? p then 8 else 8) by (destruct (7 <=? p); reflexivity).
        apply tbr_reads; [lia|]. apply atom_reads. intros rest st acc F. rewrite <- !app_assoc. cbn [app].
        apply (func_parse _ _ _ _ _ _ _ _ rest st acc (lv_nonneg a 6) (lv_nonneg b 6) (tk_shape a 6 Pa ltac:(lia)) (tk_shape b 6 Pb ltac:(lia)) IHa IHb).
        rewrite binop_plain by exact H0. exact (func_call2 op f 7 false _ _ Ho H0).
  - apply atom_reads. cbn [signed lower]. rewrite (utoi32_word v P). apply num_atom.
  - apply atom_reads. intros rest st acc F. exact (name_parse x rest st acc F).
  - apply andb_true_iff in P as [P Pj]. apply atom_reads. intros rest st acc F. rewrite <- app_assoc.
    transitivity (parse (tailtok sh mk adj ++ rest) (FArg1 (nm "var") :: st) (Some (NValue var)) acc).
    + unfold tailtok. rewrite <- !app_assoc. reflexivity.
    + apply tail_parse0; [exact Pj|]. destruct adj as [[[t add] dm]|]; [|reflexivity]. cbn [adjustment] in Pj.
      destruct (t =? 1) eqn:E1; [apply Z.eqb_eq in E1; subst t; reflexivity|].
      destruct (t =? 2) eqn:E2; [apply Z.eqb_eq in E2; subst t; reflexivity|discriminate].
  - apply andb_true_iff in P as [P Pq]. apply andb_true_iff in P as [P Pj]. specialize (IH Pq G T 0).
    apply atom_reads. intros rest st acc F. rewrite <- !app_assoc.
    transitivity (parse ((TLp :: tk q 0 ++ [TRp]) ++ tailtok sh mk adj ++ rest) (FNamed (nm "var") (NValue var) [] (nm "param") :: st) None acc).
    + cbn [app]. rewrite <- app_assoc. reflexivity.
    + rewrite (paren_atom (tk q 0) _ _ (lv_nonneg q 0) IH) by (unfold tailtok; reflexivity).
      apply tail_parse; [exact Pj|]. destruct adj as [[[t add] dm]|]; [|reflexivity]. cbn [adjustment] in Pj.
      destruct (t =? 1) eqn:E1; [apply Z.eqb_eq in E1; subst t; reflexivity|].
      destruct (t =? 2) eqn:E2; [apply Z.eqb_eq in E2; subst t; reflexivity|discriminate].
  - assert (Pr : printable r = true).
    { destruct r as [| |v| | | | | | | |]; try exact P. exact (proj2 (utoi32_reg v P)). }
    specialize (IH Pr G T 0). apply atom_reads. intros rest st acc F. rewrite <- !app_assoc.
    exact (index_parse (nm "TEMP") _ _ _ _ rest st acc (lv_nonneg r 0) IH eq_refl F).
  - specialize (IH P G T 0). apply atom_reads. intros rest st acc F. rewrite <- !app_assoc.
    exact (index_parse (nm "PERM") _ _ _ _ rest st acc (lv_nonneg r 0) IH eq_refl F).
  - apply atom_reads. intros rest st acc F. cbn [app parse]. unfold call_1. change (bytes_eqb (nm "call") (nm "call")) with true.
    rewrite P. reflexivity.
  - apply atom_reads. intros rest st acc F. reflexivity.
Qed.

Lemma lines_parse : forall l, forallb printable l = true -> forallb grouped l = true -> forallb settled l = true -> forall acc,
  parse (tk_lines l) [] None acc = Some (acc ++ map (fun e => lower (signed e)) l).
Proof.
  induction l as [|e l IH]; intros P G T acc; [cbn; rewrite app_nil_r; reflexivity|].
  cbn [forallb] in P, G, T. apply andb_true_iff in P as [P P'], G as [G G'], T as [T T']. 
  specialize (IH P' G' T'). destruct l as [|e' l].
  - cbn [tk_lines map].
    destruct (tk_reads e P G T 0 [] [] acc eq_refl (or_intror I)) as (fs & v & E & R). rewrite app_nil_r in E. rewrite E.
    cbn [parse]. rewrite (R 0 (lv_nonneg e 0)). reflexivity.
  - cbn [tk_lines]. destruct (tk_reads e P G T 0 (TNewline :: tk_lines (e' :: l)) [] acc eq_refl (or_intror I)) as (fs & v & E & R).
    transitivity (parse (TNewline :: tk_lines (e' :: l)) (fs ++ []) (Some v) acc); [exact E|].
    cbn [parse]. rewrite (R 0 (lv_nonneg e 0)). cbn [reduce]. rewrite (IH (acc ++ [lower (signed e)])), <- app_assoc. reflexivity.
Qed.
