(** strip, textwrap.dedent and textwrap.indent change indentation only. *)
From Coq Require Import ZArith List Bool Lia String.
From Verif Require Import Base BaseFacts PyValue SpecPython PyTextModel PyReadProofs PyIndentProofs.
Import ListNotations.
Open Scope Z_scope.

(** Printable characters and line feeds. *)
Definition cleanc (c : Z) : bool := (32 <=? c) || (c =? 10).
Definition clean (s : bytes) : bool := forallb cleanc s.
Lemma clean_app a b : clean (a ++ b) = clean a && clean b. Proof. apply forallb_app. Qed.
Lemma clean_space c : cleanc c = true -> spaceb c = (c =? 32) || (c =? 10).
Proof. unfold cleanc, spaceb. lia. Qed.

(** ** strip *)
Fixpoint rstrip (s : bytes) : bytes :=
  match s with
  | [] => []
  | c :: r => match rstrip r with [] => if spaceb c then [] else [c] | t => c :: t end
  end.
Lemma lstrip_app a b : lstrip (a ++ b) = if blankb a then lstrip b else lstrip a ++ b.
Proof. induction a as [|c a IH]; [reflexivity|]. cbn [app lstrip blankb forallb]. destruct (spaceb c); [exact IH|reflexivity]. Qed.
Lemma rstrip_rev s : rev (lstrip (rev s)) = rstrip s.
Proof.
  induction s as [|c s IH]; [reflexivity|]. cbn [rev rstrip]. rewrite lstrip_app.
  assert (B : blankb (rev s) = true <-> rstrip s = []).
  { rewrite <- IH. split.
    - intros H. rewrite <- (app_nil_r (rev s)), lstrip_app, H. reflexivity.
    - intros H. destruct (blankb (rev s)) eqn:E; [reflexivity|exfalso].
      assert (X : forall t, blankb t = false -> lstrip t <> []).
      { induction t as [|a t IHt]; [discriminate|]. cbn [blankb forallb lstrip]. destruct (spaceb a); [exact IHt|discriminate]. }
      apply (X _ E). apply (f_equal (@rev Z)) in H. rewrite rev_involutive in H. exact H. }
  destruct (blankb (rev s)) eqn:E.
  - rewrite (proj1 B eq_refl). cbn [lstrip]. destruct (spaceb c); reflexivity.
  - rewrite rev_app_distr. cbn [rev app]. rewrite IH. destruct (rstrip s) eqn:R; [|reflexivity]. destruct B as [_ B]. specialize (B eq_refl). discriminate.
Qed.
Lemma strip_eq s : strip s = rstrip (lstrip s). Proof. apply rstrip_rev. Qed.
Lemma norm_lstrip s : clean s = true -> norm true (lstrip s) = lstrip (norm true s).
Proof.
  induction s as [|c s IH]; [reflexivity|]. cbn [clean forallb]. intros H. apply andb_prop in H as [C S].
  cbn [lstrip norm]. rewrite (clean_space c C). destruct (c =? 10) eqn:A.
  - rewrite orb_true_r. cbn [lstrip]. apply IH. exact S.
  - cbn [andb]. destruct (c =? 32) eqn:B; cbn [orb]; [apply IH; exact S|]. cbn [norm lstrip]. rewrite A, B. cbn [andb lstrip]. rewrite (clean_space c C), A, B. reflexivity.
Qed.
Lemma norm_nonspace : forall s nl, existsb (fun c => negb (spaceb c)) s = true -> norm nl s <> [].
Proof.
  induction s as [|c s IH]; intros nl H; [discriminate|]. cbn [existsb] in H. cbn [norm]. destruct (c =? 10); [discriminate|].
  destruct (nl && (c =? 32)) eqn:E; [|discriminate]. apply IH. apply andb_prop in E as [_ E]. apply Z.eqb_eq in E. subst c. exact H.
Qed.
Lemma rstrip_nonspace s : rstrip s = [] \/ existsb (fun c => negb (spaceb c)) (rstrip s) = true.
Proof.
  induction s as [|c s IH]; [left; reflexivity|]. cbn [rstrip]. destruct (rstrip s) as [|a t] eqn:E.
  - destruct (spaceb c) eqn:S; [left; reflexivity|right]. cbn. rewrite S. reflexivity.
  - right. destruct IH as [IH|IH]; [discriminate|]. cbn [existsb] in IH |- *. rewrite IH. apply orb_true_r.
Qed.
Lemma norm_rstrip : forall s nl, clean s = true -> norm nl (rstrip s) = rstrip (norm nl s).
Proof.
  induction s as [|c s IH]; intros nl H; [reflexivity|]. cbn [clean forallb] in H. apply andb_prop in H as [C S].
  assert (E : forall nl, (rstrip (norm nl s) = [] /\ rstrip s = []) \/ (rstrip s <> [] /\ rstrip (norm nl s) <> [] /\ rstrip (norm nl s) = norm nl (rstrip s))).
  { intros m. rewrite <- (IH m S). destruct (rstrip_nonspace s) as [R|R].
    - left. rewrite R. split; reflexivity.
    - right. pose proof (norm_nonspace _ m R). repeat split; [intros X; rewrite X in R; discriminate|exact H]. }
  assert (K : forall t (d : Z), rstrip t <> [] -> rstrip (d :: t) = d :: rstrip t) by (intros t d N; cbn [rstrip]; destruct (rstrip t); [congruence|reflexivity]).
  assert (R : rstrip (c :: s) = match rstrip s with [] => if spaceb c then [] else [c] | t => c :: t end) by reflexivity.
  destruct (c =? 10) eqn:A.
  - apply Z.eqb_eq in A. subst c. cbn [norm]. change (10 =? 10) with true. cbv iota.
    assert (R' : rstrip (10 :: norm true s) = match rstrip (norm true s) with [] => [] | t => 10 :: t end) by reflexivity.
    rewrite R, R'. destruct (E true) as [[E1 E2] | (E1 & E2 & E3)].
    + rewrite E1, E2. reflexivity.
    + destruct (rstrip s) as [|x t] eqn:X; [congruence|]. rewrite E3 in E2 |- *. destruct (norm true (x :: t)) eqn:Y; [congruence|]. rewrite <- Y. reflexivity.
  - cbn [norm]. rewrite A. destruct (nl && (c =? 32)) eqn:B.
    + apply andb_prop in B as [-> B]. apply Z.eqb_eq in B. subst c. rewrite R. destruct (E true) as [[E1 E2] | (E1 & E2 & E3)].
      * rewrite E1, E2. reflexivity.
      * rewrite E3. destruct (rstrip s) eqn:X; [congruence|]. reflexivity.
    + assert (R' : rstrip (c :: norm false s) = match rstrip (norm false s) with [] => if spaceb c then [] else [c] | t => c :: t end) by reflexivity.
      destruct (E false) as [[E1 E2] | (E1 & E2 & E3)].
      * rewrite R, R'. rewrite E1, E2. destruct (spaceb c); [reflexivity|]. cbn [norm]. rewrite A, B. reflexivity.
      * rewrite (K s c E1), (K _ c E2), E3. cbn [norm]. rewrite A, B. reflexivity.
Qed.
Lemma clean_lstrip s : clean s = true -> clean (lstrip s) = true.
Proof. induction s as [|c s IH]; [reflexivity|]. cbn [lstrip]. intros H. destruct (spaceb c); [|exact H]. apply IH. apply andb_prop in H. tauto. Qed.
Lemma norm_strip s : clean s = true -> norm true (strip s) = strip (norm true s).
Proof. intros H. rewrite !strip_eq. rewrite norm_rstrip by (apply clean_lstrip; exact H). rewrite norm_lstrip by exact H. reflexivity. Qed.

(** Text between blanks. *)
Lemma rstrip_end a c : spaceb c = false -> rstrip (a ++ [c]) = a ++ [c].
Proof.
  intros H. induction a as [|x a IH]; cbn [app rstrip]; [rewrite H; reflexivity|]. rewrite IH. destruct (a ++ [c]) eqn:E; [|reflexivity]. destruct a; discriminate.
Qed.
Lemma rstrip_blank b : blankb b = true -> rstrip b = [].
Proof. induction b as [|x b IH]; [reflexivity|]. cbn [blankb forallb]. intros H. apply andb_prop in H as [A B]. cbn [rstrip]. rewrite IH by exact B. rewrite A. reflexivity. Qed.
Lemma rstrip_app_blank a b : blankb b = true -> rstrip (a ++ b) = rstrip a.
Proof. intros H. induction a as [|x a IH]; [apply rstrip_blank; exact H|]. cbn [app rstrip]. rewrite IH. reflexivity. Qed.
Lemma strip_core lead core trail d : blankb lead = true -> blankb trail = true -> match core with c :: _ => spaceb c = false | [] => False end -> spaceb d = false ->
  strip (lead ++ (core ++ [d]) ++ trail) = core ++ [d].
Proof.
  intros L T F D. rewrite strip_eq, lstrip_app, L.
  assert (E : lstrip ((core ++ [d]) ++ trail) = (core ++ [d]) ++ trail).
  { destruct core as [|c core]; [destruct F|]. cbn [app lstrip]. rewrite F. reflexivity. }
  rewrite E, rstrip_app_blank by exact T. apply rstrip_end. exact D.
Qed.

(** ** Lines *)
Fixpoint dropsp (l : bytes) : bytes := match l with c :: r => if c =? 32 then dropsp r else l | [] => [] end.
Definition one_line (l : bytes) : Prop := ~ In 10 l.
Lemma norm_line : forall l nl, one_line l -> norm nl l = if nl then dropsp l else l.
Proof.
  induction l as [|c l IH]; intros nl H; [destruct nl; reflexivity|]. cbn [norm dropsp].
  assert (N : (c =? 10) = false) by (apply Z.eqb_neq; intros ->; apply H; left; reflexivity). rewrite N.
  assert (H' : one_line l) by (intros X; apply H; right; exact X).
  destruct nl; cbn [andb].
  - destruct (c =? 32); [apply (IH true H')|]. rewrite (IH false H'). reflexivity.
  - rewrite (IH false H'). reflexivity.
Qed.
Lemma norm_line_app : forall l r nl, one_line l -> norm nl (l ++ 10 :: r) = norm nl l ++ 10 :: norm true r.
Proof.
  induction l as [|c l IH]; intros r nl H; [reflexivity|]. cbn [app norm].
  assert (N : (c =? 10) = false) by (apply Z.eqb_neq; intros ->; apply H; left; reflexivity). rewrite N.
  assert (H' : one_line l) by (intros X; apply H; right; exact X). destruct (nl && (c =? 32)); rewrite IH by exact H'; reflexivity.
Qed.
Lemma norm_unlines ls : Forall one_line ls -> norm true (unlines ls) = unlines (map dropsp ls).
Proof.
  induction ls as [|l ls IH]; intros F; [reflexivity|]. inversion F as [|? ? F1 F2]; subst. destruct ls as [|m ls].
  - cbn [unlines joins map]. apply (norm_line l true F1).
  - change (unlines (l :: m :: ls)) with (l ++ 10 :: unlines (m :: ls)). change (unlines (map dropsp (l :: m :: ls))) with (dropsp l ++ 10 :: unlines (map dropsp (m :: ls))).
    rewrite norm_line_app by exact F1. rewrite (norm_line l true F1), IH by exact F2. reflexivity.
Qed.
Lemma lines_cons s : exists l ls, lines s = l :: ls.
Proof. destruct s as [|c s]; [eexists _, _; reflexivity|]. cbn [lines]. destruct (c =? 10); [eexists _, _; reflexivity|]. destruct (lines s); eexists _, _; reflexivity. Qed.
Lemma unlines_lines s : unlines (lines s) = s.
Proof.
  induction s as [|c s IH]; [reflexivity|]. cbn [lines]. destruct (lines_cons s) as (l & ls & E). rewrite E in IH |- *. destruct (c =? 10) eqn:A.
  - apply Z.eqb_eq in A. subst c. change (unlines ([] :: l :: ls)) with (10 :: unlines (l :: ls)). rewrite IH. reflexivity.
  - assert (U : unlines ((c :: l) :: ls) = c :: unlines (l :: ls)) by (destruct ls; reflexivity). rewrite U, IH. reflexivity.
Qed.
Lemma lines_one s : Forall one_line (lines s).
Proof.
  induction s as [|c s IH]; [repeat constructor; easy|]. cbn [lines]. destruct (c =? 10) eqn:A; [constructor; [easy|exact IH]|].
  destruct (lines s) as [|l ls]; [repeat constructor; intros [X|[]]; subst; discriminate|]. inversion IH; subst. constructor; [|assumption].
  intros [X|X]; [subst; discriminate|contradiction].
Qed.
Lemma lines_clean s : clean s = true -> Forall (fun l => clean l = true) (lines s).
Proof.
  induction s as [|c s IH]; intros H; [repeat constructor|]. cbn [clean forallb] in H. apply andb_prop in H as [C S]. specialize (IH S).
  cbn [lines]. destruct (c =? 10) eqn:A; [constructor; [reflexivity|exact IH]|].
  destruct (lines s) as [|l ls]; [repeat constructor; cbn; rewrite C; reflexivity|]. inversion IH; subst. constructor; [|assumption].
  cbn [clean forallb]. rewrite C. assumption.
Qed.
(** A change of every line that leaves its text alone. *)
Lemma norm_map f s : clean s = true -> (forall l, In l (lines s) -> one_line l -> clean l = true -> dropsp (f l) = dropsp l /\ one_line (f l)) ->
  norm true (unlines (map f (lines s))) = norm true s.
Proof.
  intros C H. assert (K : Forall (fun l => dropsp (f l) = dropsp l /\ one_line (f l)) (lines s)).
  { pose proof (lines_one s) as O. pose proof (lines_clean s C) as L. rewrite Forall_forall in O, L |- *. intros l I. apply H; auto. }
  rewrite norm_unlines.
  - rewrite map_map. rewrite <- (unlines_lines s) at 2. rewrite norm_unlines by apply lines_one. f_equal. apply map_ext_in. intros l I. rewrite Forall_forall in K. apply K. exact I.
  - apply Forall_map. rewrite Forall_forall in K |- *. intros l I. apply K. exact I.
Qed.

(** ** dedent *)
Lemma prefix_length a b : (List.length (common_prefix a b) <= List.length a)%nat /\ (List.length (common_prefix a b) <= List.length b)%nat.
Proof.
  revert b. induction a as [|x a IH]; intros [|y b]; cbn [common_prefix]; try (cbn; lia). destruct (x =? y); [|cbn; lia]. destruct (IH b). cbn. lia.
Qed.
Lemma margin_le : forall ls m l, margin ls = Some m -> In l ls -> tabs_only l = false -> (List.length m <= List.length (indentation l))%nat.
Proof.
  induction ls as [|a ls IH]; intros m l M I T; [destruct I|]. cbn [margin] in M. destruct (tabs_only a) eqn:TA.
  - destruct I as [-> | I]; [congruence|]. apply (IH m l M I T).
  - destruct (margin ls) as [m'|] eqn:E.
    + injection M as <-. destruct (prefix_length (indentation a) m') as [P1 P2]. destruct I as [-> | I]; [exact P1|]. specialize (IH m' l eq_refl I T). lia.
    + injection M as <-. destruct I as [-> | I]; [lia|]. exfalso.
      assert (X : forall ls, margin ls = None -> forall l, In l ls -> tabs_only l = true).
      { clear. induction ls as [|b ls IH]; intros H l I; [destruct I|]. cbn [margin] in H. destruct (tabs_only b) eqn:TB; [|discriminate].
        destruct I as [-> | I]; [exact TB|apply IH; assumption]. }
      rewrite (X ls E l I) in T. discriminate.
Qed.
Lemma skip_indentation : forall l n, clean l = true -> one_line l -> (n <= List.length (indentation l))%nat -> dropsp (skipn n l) = dropsp l.
Proof.
  induction l as [|c l IH]; intros n C O L; [destruct n; reflexivity|]. destruct n as [|n]; [reflexivity|]. cbn [indentation] in L.
  cbn [clean forallb] in C. apply andb_prop in C as [C1 C2].
  assert (N : c <> 10) by (intros ->; apply O; left; reflexivity).
  destruct (is_tab c) eqn:T; [|cbn in L; lia]. assert (E : c = 32) by (unfold is_tab in T; unfold cleanc in C1; lia). subst c.
  cbn [skipn dropsp]. change (32 =? 32) with true. cbv iota. apply IH; [exact C2| |cbn [List.length] in L; lia]. intros X. apply O. right. exact X.
Qed.
Lemma tabs_drop l : clean l = true -> one_line l -> tabs_only l = true -> dropsp l = [].
Proof.
  induction l as [|c l IH]; intros C O T; [reflexivity|]. cbn [clean forallb] in C. apply andb_prop in C as [C1 C2]. cbn [tabs_only forallb] in T. apply andb_prop in T as [T1 T2].
  assert (N : c <> 10) by (intros ->; apply O; left; reflexivity).
  assert (E : c = 32) by (unfold is_tab in T1; unfold cleanc in C1; lia). subst c. cbn [dropsp]. change (32 =? 32) with true. cbv iota. apply IH; try assumption. intros X. apply O. right. exact X.
Qed.
Lemma in_skipn {A} (x : A) : forall n l, In x (skipn n l) -> In x l.
Proof. induction n as [|n IH]; intros l H; [exact H|]. destruct l as [|a l]; [exact H|]. right. apply IH. exact H. Qed.
Lemma norm_dedent s : clean s = true -> norm true (dedent s) = norm true s.
Proof.
  intros C. unfold dedent. apply norm_map; [exact C|]. intros l I O CL. destruct (tabs_only l) eqn:T.
  - split; [symmetry; apply tabs_drop; assumption|easy].
  - split; [|intros X; apply O; apply (in_skipn _ _ _ X)]. destruct (margin (lines s)) as [m|] eqn:M; [|reflexivity].
    apply skip_indentation; [exact CL|exact O|]. apply (margin_le (lines s)); assumption.
Qed.
Lemma clean_unlines ls : Forall (fun l => clean l = true) ls -> clean (unlines ls) = true.
Proof.
  induction ls as [|l ls IH]; intros F; [reflexivity|]. inversion F; subst. destruct ls as [|m ls]; [assumption|].
  change (unlines (l :: m :: ls)) with (l ++ 10 :: unlines (m :: ls)). rewrite clean_app. cbn [clean forallb]. rewrite H1. cbn [andb]. apply IH. assumption.
Qed.
Lemma clean_map f s : clean s = true -> (forall l, clean l = true -> clean (f l) = true) -> clean (unlines (map f (lines s))) = true.
Proof. intros C H. apply clean_unlines. apply Forall_map. pose proof (lines_clean s C) as L. rewrite Forall_forall in L |- *. intros l I. apply H, L, I. Qed.
Lemma clean_skipn n : forall l, clean l = true -> clean (skipn n l) = true.
Proof. intros l H. unfold clean in *. rewrite forallb_forall in H |- *. intros x I. apply H. apply (in_skipn _ _ _ I). Qed.
Lemma clean_dedent s : clean s = true -> clean (dedent s) = true.
Proof. intros C. unfold dedent. apply clean_map; [exact C|]. intros l CL. destruct (tabs_only l); [reflexivity|apply clean_skipn; exact CL]. Qed.
(** grf.py:310 on a text: the same up to indentation. *)
Lemma norm_code s : clean s = true -> norm true (strip (dedent s)) = norm true (strip s).
Proof. intros C. rewrite !norm_strip by (try apply clean_dedent; exact C). rewrite norm_dedent by exact C. reflexivity. Qed.

(** ** indent *)
Lemma drop_repeat n l : dropsp (repeat 32 n ++ l) = dropsp l.
Proof. induction n as [|n IH]; [reflexivity|exact IH]. Qed.
Lemma norm_indent n s : clean s = true -> norm true (indent n s) = norm true s.
Proof.
  intros C. unfold indent. apply norm_map; [exact C|]. intros l I O CL. destruct (blankb l); [split; [reflexivity|exact O]|].
  split; [apply drop_repeat|]. intros X. apply in_app_or in X as [X|X]; [|apply O; exact X]. apply repeat_spec in X. discriminate.
Qed.
Lemma clean_repeat n : clean (repeat 32 n) = true. Proof. induction n; [reflexivity|assumption]. Qed.
Lemma clean_indent n s : clean s = true -> clean (indent n s) = true.
Proof. intros C. unfold indent. apply clean_map; [exact C|]. intros l CL. destruct (blankb l); [exact CL|]. rewrite clean_app, clean_repeat. exact CL. Qed.
Lemma norm_lstrip_any nl s : norm nl (lstrip s) = norm true (lstrip s).
Proof.
  assert (F : match lstrip s with [] => True | a :: _ => (a =? 32) = false end).
  { induction s as [|c s IH]; [exact I|]. cbn [lstrip]. destruct (spaceb c) eqn:S; [exact IH|]. destruct (Z.eqb_spec c 32); [subst; discriminate|reflexivity]. }
  rewrite (norm_any nl), (norm_any true) by exact F. reflexivity.
Qed.
Lemma norm_lstrip_indent n s : clean s = true -> norm false (lstrip (indent n s)) = norm false (lstrip s).
Proof.
  intros C. rewrite !(norm_lstrip_any false). rewrite !norm_lstrip by (try apply clean_indent; exact C). rewrite norm_indent by exact C. reflexivity.
Qed.

(** ** Replacing a part *)
Fixpoint state (nl : bool) (s : bytes) : bool :=
  match s with
  | [] => nl
  | c :: r => if c =? 10 then state true r else if nl && (c =? 32) then state true r else state false r
  end.
Lemma norm_app : forall a b nl, norm nl (a ++ b) = norm nl a ++ norm (state nl a) b.
Proof. induction a as [|c a IH]; intros b nl; [reflexivity|]. cbn [app norm state]. destruct (c =? 10); [rewrite IH; reflexivity|]. destruct (nl && (c =? 32)); rewrite IH; reflexivity. Qed.
Lemma state_norm : forall a nl, state nl (norm nl a) = state nl a.
Proof.
  induction a as [|c a IH]; intros nl; [reflexivity|]. cbn [norm state]. destruct (c =? 10) eqn:A; [cbn [state]; apply IH|].
  destruct (nl && (c =? 32)) eqn:B; [|cbn [state]; rewrite A, B; apply IH]. apply andb_prop in B as [-> _]. apply IH.
Qed.
Lemma norm_replace nl x y b : norm nl x = norm nl y -> norm nl (x ++ b) = norm nl (y ++ b).
Proof. intros H. rewrite !norm_app. rewrite <- (state_norm x), <- (state_norm y), H. reflexivity. Qed.
Lemma norm_after a x y nl : norm (state nl a) x = norm (state nl a) y -> norm nl (a ++ x) = norm nl (a ++ y).
Proof. intros H. rewrite !norm_app, H. reflexivity. Qed.
