(** The reader of SpecPython does not see how lines are indented; what
    textwrap.dedent, strip and indent change is indentation. *)
From Coq Require Import ZArith List Bool Lia String.
From Verif Require Import Base BaseFacts PyValue SpecPython PyTextModel PyReadProofs.
Import ListNotations.
Open Scope Z_scope.

(** The text without the spaces that begin lines; [nl]: at the beginning of a
    line. *)
Fixpoint norm (nl : bool) (s : bytes) : bytes :=
  match s with
  | [] => []
  | c :: r => if c =? 10 then 10 :: norm true r
              else if nl && (c =? 32) then norm true r
              else c :: norm false r
  end.
Fixpoint normv (v : py) : py :=
  match v with
  | YText s => YText (norm false s)
  | YTuple l => YTuple (map normv l)
  | YList l => YList (map normv l)
  | YDict l => YDict (map (fun e => (normv (fst e), normv (snd e))) l)
  | YAttr e x => YAttr (normv e) x
  | YCall f l => YCall (normv f) (map (fun e => (fst e, normv (snd e))) l)
  | YOr a b => YOr (normv a) (normv b)
  | _ => v
  end.

Lemma norm_solid nl c r : (c =? 10) = false -> (c =? 32) = false -> norm nl (c :: r) = c :: norm false r.
Proof. intros A B. cbn [norm]. rewrite A, B, andb_false_r. reflexivity. Qed.
Lemma norm_false_cons c r : (c =? 10) = false -> norm false (c :: r) = c :: norm false r.
Proof. intros A. cbn [norm]. rewrite A. reflexivity. Qed.

(** ** Blanks *)
Lemma skip_norm deep : forall s nl c, (c = true -> nl = false) -> skip deep c (norm nl s) = norm false (skip deep c s).
Proof.
  induction s as [|a s IH]; intros nl c H; [reflexivity|]. cbn [norm skip].
  destruct (a =? 10) eqn:A.
  - cbn [skip]. rewrite Z.eqb_refl. destruct deep eqn:D; [apply IH; discriminate|].
    cbn [norm]. rewrite A. reflexivity.
  - destruct c eqn:C.
    + rewrite (H eq_refl). cbn [andb skip]. rewrite A. apply IH. reflexivity.
    + destruct (a =? 32) eqn:B.
      * destruct nl; cbn [andb]; [apply IH; discriminate|]. cbn [skip]. rewrite A, B. apply IH. discriminate.
      * rewrite andb_false_r. cbn [skip]. rewrite A, B. destruct (a =? 35) eqn:E; [apply IH; reflexivity|].
        cbn [norm]. rewrite A, B. reflexivity.
Qed.
Lemma ws_norm deep nl s : ws deep (norm nl s) = norm false (ws deep s).
Proof. apply skip_norm. discriminate. Qed.
(** After the blanks there is no space. *)
Lemma skip_first deep : forall s c, match skip deep c s with [] => True | a :: _ => (a =? 32) = false end.
Proof.
  induction s as [|a s IH]; intros c; [exact I|]. cbn [skip]. destruct (a =? 10) eqn:A.
  - destruct deep; [apply IH|]. apply Z.eqb_eq in A. subst. reflexivity.
  - destruct c; [apply IH|]. destruct (a =? 32) eqn:B; [apply IH|]. destruct (a =? 35); [apply IH|]. exact B.
Qed.
Lemma skip_first_nl : forall s c, match skip true c s with [] => True | a :: _ => (a =? 10) = false end.
Proof.
  induction s as [|a s IH]; intros c; [exact I|]. cbn [skip]. destruct (a =? 10) eqn:A; [apply IH|].
  destruct c; [apply IH|]. destruct (a =? 32) eqn:B; [apply IH|]. destruct (a =? 35); [apply IH|]. exact A.
Qed.
Lemma norm_any nl s : match s with [] => True | a :: _ => (a =? 32) = false end -> norm nl s = norm false s.
Proof. destruct s as [|a s]; [reflexivity|]. intros H. cbn [norm]. rewrite H, !andb_false_r. reflexivity. Qed.

(** ** Tokens *)
Lemma identb_solid c : identb c = true -> (c =? 10) = false /\ (c =? 32) = false.
Proof. unfold identb, letterb, digitb. intros H. lia. Qed.
Lemma ident_norm : forall s nl, match s with [] => True | a :: _ => (a =? 32) = false end -> ident (norm nl s) = let (x, r) := ident s in (x, norm false r).
Proof.
  assert (G : forall s, ident (norm false s) = let (x, r) := ident s in (x, norm false r)).
  { induction s as [|c s IH]; [reflexivity|]. cbn [ident]. destruct (identb c) eqn:I.
    - destruct (identb_solid c I) as [A B]. rewrite norm_solid by assumption. cbn [ident]. rewrite I, IH. destruct (ident s). reflexivity.
    - cbn [norm]. destruct (c =? 10) eqn:A.
      + apply Z.eqb_eq in A. subst. reflexivity.
      + cbn [andb ident]. rewrite I. reflexivity. }
  intros s nl H. rewrite norm_any by exact H. apply G.
Qed.
Lemma number_end_norm r : number_end (norm false r) = number_end r.
Proof.
  destruct r as [|c r]; [reflexivity|]. cbn [norm]. destruct (c =? 10) eqn:A; [apply Z.eqb_eq in A; subst; reflexivity|reflexivity].
Qed.
Lemma hexval_solid c d : hexval c = Some d -> (c =? 10) = false /\ (c =? 32) = false.
Proof. unfold hexval, digitb. intros H. destruct (c =? 10) eqn:A; [apply Z.eqb_eq in A; subst; discriminate|]. destruct (c =? 32) eqn:B; [apply Z.eqb_eq in B; subst; discriminate|]. split; reflexivity. Qed.
Lemma digitb_solid c : digitb c = true -> (c =? 10) = false /\ (c =? 32) = false.
Proof. unfold digitb. lia. Qed.
Lemma hex_norm : forall s acc, hex acc (norm false s) = let (x, r) := hex acc s in (x, norm false r).
Proof.
  induction s as [|c s IH]; intros acc; [reflexivity|]. cbn [hex]. destruct (hexval c) as [d|] eqn:I.
  - destruct (hexval_solid c d I) as [A B]. rewrite norm_solid by assumption. cbn [hex]. rewrite I. apply IH.
  - cbn [norm]. destruct (c =? 10) eqn:A.
    + apply Z.eqb_eq in A. subst. reflexivity.
    + cbn [andb hex]. rewrite I. reflexivity.
Qed.
Lemma dec_norm : forall s acc, dec acc (norm false s) = let (x, r) := dec acc s in (x, norm false r).
Proof.
  induction s as [|c s IH]; intros acc; [reflexivity|]. cbn [dec]. destruct (digitb c) eqn:I.
  - destruct (digitb_solid c I) as [A B]. rewrite norm_solid by assumption. cbn [dec]. rewrite I. apply IH.
  - cbn [norm]. destruct (c =? 10) eqn:A.
    + apply Z.eqb_eq in A. subst. reflexivity.
    + cbn [andb dec]. rewrite I. reflexivity.
Qed.
Definition omap2 {A} (o : option (A * bytes)) : option (A * bytes) := match o with Some (v, r) => Some (v, norm false r) | None => None end.
Lemma number_norm s : number (norm false s) = omap2 (number s).
Proof.
  destruct s as [|c s]; [reflexivity|].
  assert (DEC : number (norm false (c :: s)) = omap2 (number (c :: s)) \/ c = 48).
  { destruct (Z.eq_dec c 48) as [E|E]; [right; exact E|left].
    assert (G : forall t, number (c :: t) = if digitb c then let (v, r) := dec 0 (c :: t) in if number_end r then Some (v, r) else None else None).
    { intros t. cbn [number]. destruct c as [|p|p]; try reflexivity. do 6 (destruct p as [p|p|]; try reflexivity). congruence. }
    destruct (digitb c) eqn:D.
    - destruct (digitb_solid c D) as [A B]. rewrite norm_solid by assumption. rewrite !G. cbv iota.
      rewrite <- (norm_solid false c s A B), dec_norm. destruct (dec 0 (c :: s)) as [v r]. rewrite number_end_norm. destruct (number_end r); reflexivity.
    - rewrite G. cbn [norm andb]. destruct (c =? 10) eqn:A; [reflexivity|]. rewrite G. reflexivity. }
  destruct DEC as [H | ->]; [exact H|]. rewrite norm_solid by reflexivity.
  assert (Z0 : forall t, (t <> [] -> hd 0 t <> 120) -> number (48 :: t) = if number_end t then Some (0, t) else None).
  { intros t H. destruct t as [|x t]; [reflexivity|]. specialize (H ltac:(discriminate)). cbn [hd] in H. cbn [number].
    destruct x as [|p|p]; try reflexivity. repeat (destruct p as [p|p|]; try reflexivity). congruence. }
  destruct s as [|x s]; [reflexivity|]. destruct (Z.eq_dec x 120) as [-> | NX].
  - rewrite norm_solid by reflexivity. destruct s as [|h s]; [reflexivity|]. cbn [number].
    destruct (hexval h) as [d|] eqn:Hh.
    + destruct (hexval_solid h d Hh) as [A B]. rewrite norm_solid by assumption. rewrite Hh.
      rewrite <- (norm_solid false h s A B), hex_norm. destruct (hex 0 (h :: s)) as [v r]. rewrite number_end_norm. destruct (number_end r); reflexivity.
    + cbn [norm andb]. destruct (h =? 10) eqn:A; [reflexivity|]. rewrite Hh. reflexivity.
  - rewrite (Z0 (x :: s)) by (intros _; exact NX).
    rewrite Z0.
    + rewrite number_end_norm. destruct (number_end (x :: s)); reflexivity.
    + intros _. cbn [norm andb]. destruct (x =? 10); cbn [hd]; [discriminate|exact NX].
Qed.

(** ** Literals *)
Lemma quoteb_solid q : quoteb q = true -> (q =? 10) = false /\ (q =? 32) = false /\ q <> 10 /\ q <> 32 /\ (q =? 92) = false /\ (q <? 32) = false.
Proof. unfold quoteb. lia. Qed.
Lemma triple_norm q r : quoteb q = true -> opens_triple q (norm false r) = opens_triple q r /\ (opens_triple q r = true -> skipn 2 (norm false r) = norm false (skipn 2 r)).
Proof.
  intros Q. destruct (quoteb_solid q Q) as (A & B & NA & NB & _). destruct r as [|a r]; [split; [reflexivity|discriminate]|].
  cbn [norm andb]. destruct (a =? 10) eqn:E.
  - apply Z.eqb_eq in E. subst a.
    assert (X : forall t, opens_triple q (10 :: t) = false).
    { intros t. unfold opens_triple. destruct t; [reflexivity|]. rewrite Z.eqb_sym, A. reflexivity. }
    rewrite !X. split; [reflexivity|discriminate].
  - destruct r as [|b r]; [split; [reflexivity|discriminate]|]. cbn [norm andb]. destruct (b =? 10) eqn:F.
    + apply Z.eqb_eq in F. subst b. cbn [opens_triple]. rewrite (Z.eqb_sym 10 q), A, andb_false_r. split; [reflexivity|discriminate].
    + split; reflexivity.
Qed.
Lemma quoted_norm q : quoteb q = true -> forall s, quoted q false (norm false s) = omap2 (quoted q false s).
Proof.
  intros Q. destruct (quoteb_solid q Q) as (A & B & NA & NB & NC & ND).
  assert (G : forall k s, (List.length s <= k)%nat -> quoted q false (norm false s) = omap2 (quoted q false s)).
  { induction k as [|k IH]; intros s L; [destruct s; [reflexivity|cbn in L; lia]|]. destruct s as [|c s]; [reflexivity|]. cbn [List.length] in L.
    destruct (c =? 10) eqn:C10.
    - apply Z.eqb_eq in C10. subst c. cbn [norm]. change (10 =? 10) with true. cbv iota. cbn [quoted]. change (10 =? 92) with false. rewrite (Z.eqb_sym 10 q), A. reflexivity.
    - rewrite norm_false_cons by exact C10. cbn [quoted]. destruct (c =? 92) eqn:C92.
      + destruct s as [|e s]; [reflexivity|]. cbn [List.length] in L.
        assert (D : forall (e : Z) s, (List.length s <= k)%nat ->
             (do v <- (if e =? 110 then Some 10 else if e =? 116 then Some 9 else if e =? 114 then Some 13
                       else if e =? 92 then Some 92 else if e =? 39 then Some 39 else if e =? 34 then Some 34 else None);
              do (x, r) <- quoted q false (norm false s); Some (v :: x, r)) =
             omap2 (do v <- (if e =? 110 then Some 10 else if e =? 116 then Some 9 else if e =? 114 then Some 13
                       else if e =? 92 then Some 92 else if e =? 39 then Some 39 else if e =? 34 then Some 34 else None);
              do (x, r) <- quoted q false s; Some (v :: x, r))).
        { intros e0 s0 L0. destruct (if e0 =? 110 then _ else _); [|reflexivity]. cbn [bind]. rewrite IH by exact L0. destruct (quoted q false s0) as [[x r]|]; reflexivity. }
        destruct (Z.eq_dec e 120) as [-> | NX].
        * rewrite norm_solid by reflexivity. destruct s as [|a s]; [reflexivity|]. 
          destruct (hexval a) as [va|] eqn:Ha.
          -- destruct (hexval_solid a va Ha) as [A1 A2]. rewrite norm_solid by assumption. destruct s as [|b s]; [reflexivity|].
             destruct (hexval b) as [vb|] eqn:Hb.
             ++ destruct (hexval_solid b vb Hb) as [B1 B2]. rewrite norm_solid by assumption. rewrite Ha, Hb. cbn [List.length] in L. rewrite IH by lia.
                destruct (quoted q false s) as [[x r]|]; reflexivity.
             ++ cbn [norm andb]. destruct (b =? 10) eqn:B10; [apply Z.eqb_eq in B10; subst b|]; rewrite ?Ha, ?Hb; reflexivity.
          -- (* the first digit is no digit: refused *)
             assert (R1 : forall t, match a :: t with a :: b :: r => match hexval a, hexval b with Some a, Some b => do (x, r) <- quoted q false r; Some (16 * a + b :: x, r) | _, _ => None end | _ => None end = None (A := bytes * bytes)).
             { intros t. destruct t; [reflexivity|]. rewrite Ha. reflexivity. }
             cbn [norm andb]. destruct (a =? 10) eqn:A10.
             ++ destruct (norm true s) as [|b t]; destruct s as [|b' t']; try reflexivity; rewrite ?Ha; try reflexivity.
             ++ destruct (norm false s) as [|b t]; destruct s as [|b' t']; rewrite ?Ha; reflexivity.
        * assert (X : forall t, match e :: t with
                      | 120 :: a :: b :: r =>
                          match hexval a, hexval b with
                          | Some a, Some b => do (x, r) <- quoted q false r; Some (16 * a + b :: x, r)
                          | _, _ => None
                          end
                      | e :: r =>
                          do v <- (if e =? 110 then Some 10 else if e =? 116 then Some 9 else if e =? 114 then Some 13
                                   else if e =? 92 then Some 92 else if e =? 39 then Some 39 else if e =? 34 then Some 34 else None);
                          do (x, r) <- quoted q false r; Some (v :: x, r)
                      | [] => None
                      end =
                      (do v <- (if e =? 110 then Some 10 else if e =? 116 then Some 9 else if e =? 114 then Some 13
                                   else if e =? 92 then Some 92 else if e =? 39 then Some 39 else if e =? 34 then Some 34 else None);
                          do (x, r) <- quoted q false t; Some (v :: x, r))).
          { intros t. destruct e as [|p|p]; try reflexivity. repeat (destruct p as [p|p|]; try reflexivity). congruence. }
          rewrite X. destruct (e =? 10) eqn:E10.
          -- apply Z.eqb_eq in E10. subst e. reflexivity.
          -- rewrite norm_false_cons by exact E10. rewrite X. apply D. lia.
      + destruct (c =? q) eqn:CQ; [reflexivity|]. cbn [andb]. rewrite C10. cbn [andb negb]. rewrite andb_true_r. destruct (c <? 32) eqn:C32; [reflexivity|].
        rewrite IH by lia. destruct (quoted q false s) as [[x r]|]; reflexivity. }
  intros s. apply (G (List.length s) s). lia.
Qed.
Lemma quoted_triple_norm q : quoteb q = true -> forall s nl,
  quoted q true (norm nl s) = match quoted q true s with Some (x, r) => Some (norm nl x, norm false r) | None => None end.
Proof.
  intros Q. destruct (quoteb_solid q Q) as (A & B & NA & NB & NC & ND).
  induction s as [|c s IH]; intros nl; [reflexivity|]. cbn [norm]. destruct (c =? 10) eqn:C10.
  - apply Z.eqb_eq in C10. subst c. cbn [quoted]. change (10 =? 92) with false. rewrite (Z.eqb_sym 10 q), A. cbn [andb negb]. change (10 =? 10) with true. change (10 <? 32) with true.
    cbn [andb negb]. rewrite (IH true). destruct (quoted q true s) as [[x r]|]; [|reflexivity]. cbn [bind norm]. reflexivity.
  - destruct (nl && (c =? 32)) eqn:S.
    + apply andb_prop in S as [-> S]. apply Z.eqb_eq in S. subst c. rewrite (IH true). cbn [quoted]. change (32 =? 92) with false. rewrite (Z.eqb_sym 32 q), B.
      change (32 =? 10) with false. change (32 <? 32) with false. cbn [andb negb]. destruct (quoted q true s) as [[x r]|]; reflexivity.
    + cbn [quoted]. destruct (c =? 92) eqn:C92; [reflexivity|]. destruct (c =? q) eqn:CQ.
      * destruct (triple_norm q s Q) as [T1 T2]. rewrite T1. destruct (opens_triple q s) eqn:O.
        -- rewrite T2 by reflexivity. reflexivity.
        -- rewrite (IH false). destruct (quoted q true s) as [[x r]|]; [|reflexivity]. cbn [bind norm]. rewrite C10, S. reflexivity.
      * rewrite C10. cbn [andb negb]. rewrite andb_true_r. destruct (c <? 32); [reflexivity|].
        rewrite (IH false). destruct (quoted q true s) as [[x r]|]; [|reflexivity]. cbn [bind norm]. rewrite C10, S. reflexivity.
Qed.
Lemma bytes_literal_norm s : bytes_literal (norm false s) = omap2 (bytes_literal s).
Proof.
  destruct s as [|c [|q r]]; [reflexivity|cbn [norm andb]; destruct (c =? 10) eqn:C10; [apply Z.eqb_eq in C10; subst; reflexivity|]; cbn [bytes_literal]; destruct c as [|p|p]; try reflexivity; repeat (destruct p as [p|p|]; try reflexivity)|].
  assert (G : forall c r, c <> 98 -> bytes_literal (c :: r) = None).
  { intros c0 r0 N. destruct c0 as [|p|p]; try reflexivity. repeat (destruct p as [p|p|]; try reflexivity). congruence. }
  destruct (Z.eq_dec c 98) as [-> | N].
  - rewrite norm_solid by reflexivity. cbn [bytes_literal]. destruct (quoteb q) eqn:Q.
    + destruct (quoteb_solid q Q) as (A & B & _). rewrite norm_solid by assumption. rewrite Q.
      destruct (triple_norm q r Q) as [T _]. rewrite T. destruct (opens_triple q r); [reflexivity|]. rewrite quoted_norm by exact Q.
      destruct (quoted q false r) as [[x t]|]; [|reflexivity]. cbn [omap2 bind]. destruct (forallb _ x); reflexivity.
    + cbn [norm andb]. destruct (q =? 10) eqn:Q10; [reflexivity|]. rewrite Q. reflexivity.
  - rewrite (G c (q :: r) N). cbn [norm andb]. destruct (c =? 10) eqn:C10; rewrite G; try reflexivity; [discriminate|exact N].
Qed.
Lemma text_literal_norm s : text_literal (norm false s) = omap2 (text_literal s).
Proof.
  destruct s as [|q r]; [reflexivity|]. cbn [text_literal]. destruct (quoteb q) eqn:Q.
  - destruct (quoteb_solid q Q) as (A & B & _). rewrite norm_solid by assumption. cbn [text_literal]. rewrite Q.
    destruct (triple_norm q r Q) as [T _]. rewrite T. destruct (opens_triple q r); [reflexivity|]. apply quoted_norm. exact Q.
  - cbn [norm andb]. destruct (q =? 10) eqn:Q10; [reflexivity|]. cbn [text_literal]. rewrite Q. reflexivity.
Qed.
Lemma triple_literal_norm s : triple_literal (norm false s) = match triple_literal s with Some (x, r) => Some (norm false x, norm false r) | None => None end.
Proof.
  destruct s as [|q r]; [reflexivity|]. cbn [triple_literal]. destruct (quoteb q) eqn:Q.
  - destruct (quoteb_solid q Q) as (A & B & _). rewrite norm_solid by assumption. cbn [triple_literal]. rewrite Q.
    destruct (triple_norm q r Q) as [T1 T2]. rewrite T1. destruct (opens_triple q r) eqn:O; [|reflexivity]. rewrite T2 by reflexivity. apply quoted_triple_norm. exact Q.
  - cbn [norm andb]. destruct (q =? 10) eqn:Q10; [reflexivity|]. cbn [triple_literal]. rewrite Q. reflexivity.
Qed.
Lemma name_norm s : name (norm false s) = omap2 (name s).
Proof.
  destruct s as [|c s]; [reflexivity|]. cbn [name]. destruct (letterb c) eqn:L.
  - assert (I : identb c = true) by (unfold identb; rewrite L; reflexivity). destruct (identb_solid c I) as [A B].
    rewrite norm_solid by assumption. cbn [name]. rewrite L. rewrite <- (norm_solid false c s A B), ident_norm by exact B.
    destruct (ident (c :: s)) as [x r]. assert (F : match norm false r with c :: _ => quoteb c | [] => false end = match r with c :: _ => quoteb c | [] => false end).
    { destruct r as [|a r]; [reflexivity|]. cbn [norm andb]. destruct (a =? 10) eqn:E; [apply Z.eqb_eq in E; subst; reflexivity|reflexivity]. }
    rewrite F. destruct (_ || _); reflexivity.
  - cbn [norm andb]. destruct (c =? 10); [reflexivity|]. cbn [name]. rewrite L. reflexivity.
Qed.
Lemma more_text_norm deep : forall n b s, more_text n deep b (norm false s) = omap2 (more_text n deep b s).
Proof.
  induction n as [|n IH]; intros b s; [reflexivity|]. cbn [more_text]. rewrite ws_norm, text_literal_norm.
  destruct (text_literal (ws deep s)) as [[x r]|]; cbn [omap2]; [apply IH|reflexivity].
Qed.
Lemma more_bytes_norm deep : forall n b s, more_bytes n deep b (norm false s) = omap2 (more_bytes n deep b s).
Proof.
  induction n as [|n IH]; intros b s; [reflexivity|]. cbn [more_bytes]. rewrite ws_norm, bytes_literal_norm.
  destruct (bytes_literal (ws deep s)) as [[x r]|]; cbn [omap2]; [apply IH|reflexivity].
Qed.

(** ** Expressions *)
Definition nm (o : option (py * bytes)) : option (py * bytes) := match o with Some (v, r) => Some (normv v, norm false r) | None => None end.
Definition nml (o : option (list py * bytes)) : option (list py * bytes) := match o with Some (v, r) => Some (map normv v, norm false r) | None => None end.
Definition nme (o : option (list (py * py) * bytes)) : option (list (py * py) * bytes) :=
  match o with Some (v, r) => Some (map (fun e => (normv (fst e), normv (snd e))) v, norm false r) | None => None end.
Definition nma (o : option (list (bytes * py) * bytes)) : option (list (bytes * py) * bytes) :=
  match o with Some (v, r) => Some (map (fun e => (fst e, normv (snd e))) v, norm false r) | None => None end.

(** The first character is the same. *)
Lemma norm_cases s : s = [] \/ (exists r, s = 10 :: r) \/ (exists c r, s = c :: r /\ c <> 10 /\ norm false (c :: r) = c :: norm false r).
Proof.
  destruct s as [|c r]; [left; reflexivity|right]. destruct (Z.eq_dec c 10) as [-> | N]; [left; eauto|right].
  exists c, r. repeat split; [exact N|]. apply norm_false_cons. apply Z.eqb_neq. exact N.
Qed.
Definition norm_ok (n : nat) : Prop :=
  (forall deep s, expr n deep (norm false s) = nm (expr n deep s)) /\
  (forall deep a s, alternatives n deep (normv a) (norm false s) = nm (alternatives n deep a s)) /\
  (forall deep s, unary n deep (norm false s) = nm (unary n deep s)) /\
  (forall deep s, atom n deep (norm false s) = nm (atom n deep s)) /\
  (forall deep a s, trailer n deep (normv a) (norm false s) = nm (trailer n deep a s)) /\
  (forall close s, closec close = true -> items n close (norm false s) = nml (items n close s)) /\
  (forall s, entries n (norm false s) = nme (entries n s)) /\
  (forall named s, arguments n named (norm false s) = nma (arguments n named s)).
Lemma closec_solid c : closec c = true -> (c =? 10) = false /\ (c =? 32) = false.
Proof. unfold closec. lia. Qed.

Ltac zcases c G := destruct c as [|?p|?p]; try exact G; repeat (match goal with p : positive |- _ => destruct p as [p|p|]; try exact G end).

Lemma norm_step n : norm_ok n -> norm_ok (S n).
Proof.
  intros (He & Ha & Hu & Ht & Hr & Hi & Hd & Hg). unfold norm_ok. repeat split.
  - intros deep s. cbn [expr]. rewrite Hu. destruct (unary n deep s) as [[a r]|]; [|reflexivity]. cbn [nm bind]. apply Ha.
  - intros deep a s. cbn [alternatives]. rewrite ws_norm.
    destruct (norm_cases (ws deep s)) as [-> | [(r & ->) | (c & r & -> & N & ->)]]; [reflexivity|reflexivity|].
    assert (G : Some (normv a, norm false s) = nm (Some (a, s))) by reflexivity.
    assert (Q : (do (b, r) <- unary n deep (norm false r); alternatives n deep (YOr (normv a) b) r) = nm (do (b, r) <- unary n deep r; alternatives n deep (YOr a b) r)).
    { rewrite Hu. destruct (unary n deep r) as [[b t]|]; [|reflexivity]. cbn [nm bind]. apply (Ha deep (YOr a b)). }
    zcases c G. exact Q.
  - intros deep s. cbn [unary]. rewrite ws_norm.
    destruct (norm_cases (ws deep s)) as [-> | [(r & ->) | (c & r & -> & N & E)]]; [apply (Ht deep [])|apply (Ht deep (10 :: r))|].
    rewrite E. pose proof (Ht deep (c :: r)) as G. rewrite E in G.
    assert (Q : (do (v, r) <- number (ws deep (norm false r)); Some (YInt (- v), r)) = nm (do (v, r) <- number (ws deep r); Some (YInt (- v), r))).
    { rewrite ws_norm, number_norm. destruct (number (ws deep r)) as [[v t]|]; reflexivity. }
    clear E. zcases c G. exact Q.
  - intros deep s. destruct (norm_cases s) as [-> | [(r & ->) | (c & r & -> & N & E)]]; [reflexivity| |].
    + reflexivity.
    + assert (N10 : (c =? 10) = false) by (apply Z.eqb_neq; exact N).
      assert (NB : bytes_literal (c :: norm false r) = omap2 (bytes_literal (c :: r))) by (rewrite <- E; apply bytes_literal_norm).
      assert (NT : text_literal (c :: norm false r) = omap2 (text_literal (c :: r))) by (rewrite <- E; apply text_literal_norm).
      assert (N3 : triple_literal (c :: norm false r) = match triple_literal (c :: r) with Some (x, r) => Some (norm false x, norm false r) | None => None end) by (rewrite <- E; apply triple_literal_norm).
      assert (NN : number (c :: norm false r) = omap2 (number (c :: r))) by (rewrite <- E; apply number_norm).
      assert (NM : name (c :: norm false r) = omap2 (name (c :: r))) by (rewrite <- E; apply name_norm).
      assert (NI : (c =? 32) = false -> ident (c :: norm false r) = let (x, r) := ident (c :: r) in (x, norm false r)).
      { intros B. rewrite <- E. apply ident_norm. exact B. }
      rewrite E. cbn [atom].
      destruct (c =? 40) eqn:C40.
      { rewrite ws_norm. destruct (norm_cases (ws true r)) as [W | [(t & W) | (d & t & W & Nd & Ed)]].
        - rewrite W. cbn [norm]. replace (expr n true []) with (None (A := py * bytes)); [reflexivity|]. symmetry. apply expr_close. exact I.
        - pose proof (skip_first_nl r false) as F. unfold ws in W. rewrite W in F. discriminate.
        - rewrite W, Ed.
          assert (G : (do (e, r) <- expr n true (d :: norm false t);
               match ws true r with
               | 41 :: r => Some (e, r)
               | 44 :: r => do (l, r) <- items n 41 r; Some (YTuple (e :: l), r)
               | _ => None
               end) = nm (do (e, r) <- expr n true (d :: t);
               match ws true r with
               | 41 :: r => Some (e, r)
               | 44 :: r => do (l, r) <- items n 41 r; Some (YTuple (e :: l), r)
               | _ => None
               end)).
          { rewrite <- Ed, He. destruct (expr n true (d :: t)) as [[v u]|]; [|reflexivity]. cbn [nm bind]. rewrite ws_norm.
            destruct (norm_cases (ws true u)) as [-> | [(t' & ->) | (d' & t' & -> & Nd' & ->)]]; [reflexivity|reflexivity|].
            assert (G0 : None = nm None) by reflexivity.
            destruct d' as [|p|p]; try exact G0; repeat (destruct p as [p|p|]; try exact G0); [reflexivity|].
            rewrite Hi by reflexivity. destruct (items n 41 t') as [[l u']|]; reflexivity. }
          clear Ed W. zcases d G. reflexivity. }
      destruct (c =? 91) eqn:C91.
      { rewrite Hi by reflexivity. destruct (items n 93 r) as [[l u]|]; reflexivity. }
      destruct (c =? 123) eqn:C123.
      { rewrite Hd. destruct (entries n r) as [[l u]|]; reflexivity. }
      destruct (digitb c) eqn:Dc.
      { rewrite NN. destruct (number (c :: r)) as [[v u]|]; reflexivity. }
      destruct (quoteb c) eqn:Qc.
      { rewrite N3. destruct (triple_literal (c :: r)) as [[x u]|].
        - rewrite ws_norm, text_literal_norm, triple_literal_norm.
          destruct (text_literal (ws deep u)) as [[? ?]|]; cbn [omap2]; [reflexivity|]. destruct (triple_literal (ws deep u)) as [[? ?]|]; reflexivity.
        - rewrite NT. destruct (text_literal (c :: r)) as [[x u]|]; [|reflexivity]. cbn [omap2 bind]. rewrite more_text_norm.
          destruct (more_text n deep x u) as [[x' u']|]; reflexivity. }
      rewrite NB. destruct (bytes_literal (c :: r)) as [[x u]|]; cbn [omap2].
      { rewrite more_bytes_norm. destruct (more_bytes n deep x u) as [[x' u']|]; reflexivity. }
      destruct (c =? 32) eqn:C32.
      { apply Z.eqb_eq in C32. subst c. reflexivity. }
      rewrite NI by reflexivity. destruct (ident (c :: r)) as [x u]. destruct (same x (txt "None")); [reflexivity|].
      destruct (same x (txt "True")); [reflexivity|]. destruct (same x (txt "False")); [reflexivity|].
      rewrite NM. destruct (name (c :: r)) as [[y t]|]; [|reflexivity]. cbn [omap2 bind]. apply (Hr deep (YName y)).
  - intros deep a s. cbn [trailer]. rewrite ws_norm.
    destruct (norm_cases (ws deep s)) as [-> | [(r & ->) | (c & r & -> & N & ->)]]; [reflexivity|reflexivity|].
    assert (G : Some (normv a, norm false s) = nm (Some (a, s))) by reflexivity.
    assert (Q1 : (do (x, r) <- name (ws deep (norm false r)); trailer n deep (YAttr (normv a) x) r) = nm (do (x, r) <- name (ws deep r); trailer n deep (YAttr a x) r)).
    { rewrite ws_norm, name_norm. destruct (name (ws deep r)) as [[x t]|]; [|reflexivity]. cbn [omap2 bind]. apply (Hr deep (YAttr a x)). }
    assert (Q2 : (do (l, r) <- arguments n false (norm false r); trailer n deep (YCall (normv a) l) r) = nm (do (l, r) <- arguments n false r; trailer n deep (YCall a l) r)).
    { rewrite Hg. destruct (arguments n false r) as [[l t]|]; [|reflexivity]. cbn [nma bind]. apply (Hr deep (YCall a l)). }
    destruct c as [|p|p]; try exact G; repeat (destruct p as [p|p|]; try exact G); [reflexivity|exact Q1|exact Q2].
  - intros close s CC. cbn [items]. rewrite ws_norm.
    destruct (norm_cases (ws true s)) as [W | [(t & W) | (c & r & W & N & E)]].
    + rewrite W. reflexivity.
    + pose proof (skip_first_nl s false) as F. unfold ws in W. rewrite W in F. discriminate.
    + rewrite W, E. destruct (c =? close) eqn:C; [reflexivity|]. rewrite <- E, He. destruct (expr n true (c :: r)) as [[v u]|]; [|reflexivity]. cbn [nm bind].
      rewrite ws_norm. destruct (norm_cases (ws true u)) as [-> | [(t' & W') | (d & t' & -> & Nd & ->)]]; [reflexivity| |].
      * pose proof (skip_first_nl u false) as F. unfold ws in W'. rewrite W' in F. discriminate.
      * destruct (d =? close); [reflexivity|]. destruct (d =? 44); [|reflexivity]. rewrite Hi by exact CC. destruct (items n close t') as [[l u']|]; reflexivity.
  - intros s. cbn [entries]. rewrite ws_norm.
    destruct (norm_cases (ws true s)) as [W | [(t & W) | (c & r & W & N & E)]].
    + rewrite W. cbn [norm]. replace (expr n true []) with (None (A := py * bytes)); [reflexivity|]. symmetry. apply expr_close. exact I.
    + pose proof (skip_first_nl s false) as F. unfold ws in W. rewrite W in F. discriminate.
    + rewrite W, E.
      assert (G : (do (k, r) <- expr n true (c :: norm false r);
               match ws true r with
               | 58 :: r => do (v, r) <- expr n true r;
                            match ws true r with
                            | 125 :: r => Some ([(k, v)], r)
                            | 44 :: r => do (l, r) <- entries n r; Some ((k, v) :: l, r)
                            | _ => None
                            end
               | _ => None
               end) = nme (do (k, r) <- expr n true (c :: r);
               match ws true r with
               | 58 :: r => do (v, r) <- expr n true r;
                            match ws true r with
                            | 125 :: r => Some ([(k, v)], r)
                            | 44 :: r => do (l, r) <- entries n r; Some ((k, v) :: l, r)
                            | _ => None
                            end
               | _ => None
               end)).
      { rewrite <- E, He. destruct (expr n true (c :: r)) as [[k u]|]; [|reflexivity]. cbn [nm bind]. rewrite ws_norm.
        destruct (norm_cases (ws true u)) as [-> | [(t' & ->) | (d & t' & -> & Nd & ->)]]; [reflexivity|reflexivity|].
        assert (G0 : None = nme None) by reflexivity. zcases d G0.
        rewrite He. destruct (expr n true t') as [[v u']|]; [|reflexivity]. cbn [nm bind]. rewrite ws_norm.
        destruct (norm_cases (ws true u')) as [-> | [(t2 & ->) | (d & t2 & -> & Nd2 & ->)]]; [reflexivity|reflexivity|].
        destruct d as [|p|p]; try exact G0; repeat (destruct p as [p|p|]; try exact G0); [reflexivity|].
        rewrite Hd. destruct (entries n t2) as [[l u2]|]; reflexivity. }
      clear E W. zcases c G. reflexivity.
  - intros named s. cbn [arguments]. rewrite ws_norm.
    destruct (norm_cases (ws true s)) as [W | [(t & W) | (c & r & W & N & E)]].
    + rewrite W. cbn [norm name bind]. rewrite (expr_close n true []) by exact I. destruct named; reflexivity.
    + pose proof (skip_first_nl s false) as F. unfold ws in W. rewrite W in F. discriminate.
    + rewrite W, E.
      set (body := fun w : bytes => do (x, r) <- match name w with
                   | Some (x, r') => match ws true r' with
                                     | 61 :: r'' => if match r'' with 61 :: _ => true | _ => false end then None else Some (x, r'')
                                     | _ => Some ([], w)
                                     end
                   | None => Some ([], w)
                   end;
                   do! (match x with [] => negb named | _ => true end);
                   do (v, r) <- expr n true r;
                   match ws true r with
                   | 41 :: r => Some ([(x, v)], r)
                   | 44 :: r => do (l, r) <- arguments n (match x with [] => named | _ => true end) r; Some ((x, v) :: l, r)
                   | _ => None
                   end).
      assert (G : body (c :: norm false r) = nma (body (c :: r))).
      { rewrite <- E. unfold body. rewrite name_norm.
        set (pick := fun w : bytes => match name w with
                   | Some (x, r') => match ws true r' with
                                     | 61 :: r'' => if match r'' with 61 :: _ => true | _ => false end then None else Some (x, r'')
                                     | _ => Some ([], w)
                                     end
                   | None => Some ([], w)
                   end).
        assert (P : match omap2 (name (c :: r)) with
                   | Some (x, r') => match ws true r' with
                                     | 61 :: r'' => if match r'' with 61 :: _ => true | _ => false end then None else Some (x, r'')
                                     | _ => Some ([], norm false (c :: r))
                                     end
                   | None => Some ([], norm false (c :: r))
                   end = omap2 (pick (c :: r))).
        { unfold pick. destruct (name (c :: r)) as [[x t]|]; [|reflexivity]. cbn [omap2]. rewrite ws_norm.
          destruct (norm_cases (ws true t)) as [-> | [(t' & ->) | (d & t' & -> & Nd & ->)]]; [reflexivity|reflexivity|].
          assert (G0 : Some ([], norm false (c :: r)) = omap2 (Some ([] : bytes, c :: r))) by reflexivity.
          zcases d G0.
          assert (F : (match norm false t' with 61 :: _ => true | _ => false end) = (match t' with 61 :: _ => true | _ => false end)).
          { destruct (norm_cases t') as [-> | [(t2 & ->) | (d & t2 & -> & Nd2 & ->)]]; reflexivity. }
          rewrite F. destruct (match t' with 61 :: _ => true | _ => false end); reflexivity. }
        rewrite P. fold (pick (c :: r)). destruct (pick (c :: r)) as [[x t]|]; [|reflexivity]. cbn [omap2 bind].
        destruct (match x with [] => negb named | _ => true end); [|reflexivity]. rewrite He. destruct (expr n true t) as [[v u]|]; [|reflexivity]. cbn [nm bind].
        rewrite ws_norm. destruct (norm_cases (ws true u)) as [-> | [(t' & ->) | (d & t' & -> & Nd & ->)]]; [reflexivity|reflexivity|].
        assert (G0 : None = nma None) by reflexivity.
        destruct d as [|p|p]; try exact G0; repeat (destruct p as [p|p|]; try exact G0); [reflexivity|].
        rewrite Hg. destruct (arguments n _ t') as [[l u']|]; reflexivity. }
      unfold body in G. clear E W body. zcases c G. reflexivity.
Qed.
Lemma norm_all n : norm_ok n.
Proof. induction n as [|n IH]; [repeat split; intros; reflexivity|apply norm_step; exact IH]. Qed.
