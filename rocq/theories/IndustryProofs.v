(** Lemmas about cutting up buildings. *)
From Coq Require Import ZArith List Bool Lia FinFun.
From Verif Require Import Base BaseFacts RecordsModel IndustryModel SpecIndustry.
Import ListNotations.
Open Scope Z_scope.

Lemma pos_eqb_eq a b : pos_eqb a b = true <-> a = b.
Proof. destruct a as [a1 a2], b as [b1 b2]. unfold pos_eqb. cbn. rewrite andb_true_iff, !Z.eqb_eq. split; [intros [-> ->]; reflexivity|intros E; injection E; auto]. Qed.
Lemma pos_eqb_refl a : pos_eqb a a = true.
Proof. now apply pos_eqb_eq. Qed.
Lemma pos_eqb_neq a b : a <> b -> pos_eqb a b = false.
Proof. intros H. destruct (pos_eqb a b) eqn:E; [apply pos_eqb_eq in E; contradiction|reflexivity]. Qed.
Lemma dict_set_new {V} (l : list (pos * V)) k v : ~ In k (map fst l) -> dict_set pos_eqb l k v = l ++ [(k, v)].
Proof.
  induction l as [|[k' v'] l IH]; cbn [dict_set map fst app]; intros H; [reflexivity|].
  rewrite pos_eqb_neq by (intros ->; apply H; now left). rewrite IH by (intros I; apply H; now right). reflexivity.
Qed.

Definition entry : Type := pos * piece.
(** The tables built so far hold the entries [es]. *)
Definition rep (es : list entry) (st : pieces) : Prop :=
  NoDup (map fst es) /\ fst st = combine (map fst es) (map Z.of_nat (seq 0 (length es))) /\ snd st = map snd es.

Lemma combine_app {A B} (a a' : list A) (b b' : list B) : length a = length b -> combine (a ++ a') (b ++ b') = combine a b ++ combine a' b'.
Proof. revert b. induction a as [|u a IH]; intros [|v b] L; cbn in *; try discriminate; [reflexivity|]. rewrite IH by lia. reflexivity. Qed.
Lemma combine_keys {A B} (a : list A) (b : list B) : length a = length b -> map fst (combine a b) = a.
Proof. revert b. induction a as [|u a IH]; intros [|v b] L; cbn in *; try discriminate; [reflexivity|]. now rewrite IH by lia. Qed.
Lemma nodup_snoc {A} (l : list A) a : NoDup l -> ~ In a l -> NoDup (l ++ [a]).
Proof.
  induction l as [|b l IH]; cbn; intros N H; [constructor; [intros []|constructor]|]. inversion N; subst.
  constructor; [|apply IH; auto]. intros I. apply in_app_or in I as [I | [-> | []]]; [auto|]. apply H. now left.
Qed.

Lemma rep_add es st t q : rep es st -> ~ In t (map fst es) ->
  rep (es ++ [(t, q)]) (dict_set pos_eqb (fst st) t (len (snd st)), snd st ++ [q]).
Proof.
  intros (N & F & S) H. assert (L : length (map fst es) = length (map Z.of_nat (seq 0 (length es)))) by now rewrite !map_length, seq_length.
  repeat split; cbn [fst snd].
  - rewrite map_app. now apply nodup_snoc.
  - rewrite dict_set_new by (rewrite F, combine_keys by exact L; exact H).
    rewrite F, S, app_length, map_app, Nat.add_1_r, seq_S, map_app, combine_app by exact L. cbn [map combine fst Nat.add]. unfold len. now rewrite map_length.
  - now rewrite S, map_app.
Qed.

(** An entry of the strip that starts on tile (lx, ly). *)
Definition from (b : building) (lx ly x w xofs yofs yb : Z) (e : entry) : Prop :=
  exists k, 0 <= k /\ fst e = (lx - k, ly - k) /\ 1 <= lx - k /\ 1 <= ly - k
    /\ q_x (snd e) = b_x b + x /\ q_w (snd e) = w /\ q_xofs (snd e) = xofs
    /\ q_yofs (snd e) = b_yofs b + yofs + 32 * k + (q_y (snd e) - b_y b)
    /\ b_y b <= q_y (snd e) /\ 0 < q_h (snd e) /\ q_y (snd e) + q_h (snd e) <= b_y b + yb
    /\ (q_h (snd e) <= 231 \/ lx - k = 1 \/ ly - k = 1).
Definition row (b : building) (e : entry) (py : Z) : Prop := q_y (snd e) <= b_y b + py < q_y (snd e) + q_h (snd e).

Lemma strip_spec b x w xofs : forall fuel lx ly yofs delta yb es st,
  1 <= lx -> 1 <= ly -> 0 <= yb -> (Z.to_nat yb < fuel)%nat -> rep es st ->
  (forall e, In e es -> fst (fst e) - snd (fst e) = lx - ly -> fst (fst e) > lx) ->
  exists st' new, strip fuel b lx ly x w xofs yofs delta yb st = Some st' /\ rep (es ++ new) st'
    /\ (forall e, In e new -> from b lx ly x w xofs yofs yb e)
    /\ (0 < delta -> forall py, 0 <= py < yb -> exists e, In e new /\ row b e py)
    /\ (forall py i j ei ej, nth_error new i = Some ei -> nth_error new j = Some ej -> row b ei py -> row b ej py -> i = j).
Proof.
  induction fuel as [|fuel IH]; intros lx ly yofs delta yb es st X Y B F R D; [lia|]. cbn [strip].
  destruct ((0 <? delta) && (0 <? yb)) eqn:C.
  2:{ exists st, []. rewrite app_nil_r. split; [reflexivity|]. split; [exact R|]. split; [intros e []|]. split.
      - intros Dl py Py. lia.
      - intros py [|i] j ei ej H; discriminate H. }
  set (dl := Z.min (Z.min (lx - 1) (ly - 1)) 7). set (yt := if dl =? 0 then 0 else Z.max (yb - 231) 0).
  assert (DL : 0 <= dl <= 7 /\ dl <= lx - 1 /\ dl <= ly - 1) by (unfold dl; lia).
  assert (YT : 0 <= yt < yb /\ (dl <> 0 -> yb - yt <= 231) /\ (dl = 0 -> yt = 0)). { unfold yt. destruct (Z.eqb_spec dl 0); lia. }
  assert (D0 : dl = 0 -> lx = 1 \/ ly = 1) by (unfold dl; lia).
  clearbody dl yt.
  set (q := mk_piece (b_x b + x) (b_y b + yt) w (yb - yt) xofs (b_yofs b + yofs + yt)).
  assert (NI : ~ In (lx, ly) (map fst es)). { intros I. apply in_map_iff in I as (e & E & I). specialize (D e I). rewrite E in D. cbn in D. lia. }
  pose proof (rep_add es st (lx, ly) q R NI) as R'.
  destruct (Z.eq_dec dl 0) as [Z0 | NZ].
  - (* the last piece *)
    assert (exists f, fuel = S f) as [f ->] by (exists (fuel - 1)%nat; lia). subst dl. cbn [strip Z.ltb Z.compare andb].
    exists (dict_set pos_eqb (fst st) (lx, ly) (len (snd st)), snd st ++ [q]), [((lx, ly), q)]. split; [reflexivity|]. split; [exact R'|]. split; [|split].
    + intros e [<- | []]. exists 0. cbn [fst snd]. rewrite !Z.sub_0_r. unfold q. cbn [q_x q_y q_w q_h q_xofs q_yofs]. repeat split; try lia.
    + intros _ py Py. exists ((lx, ly), q). split; [now left|]. unfold row, q. cbn [snd q_y q_h]. destruct YT as (_ & _ & Y0). rewrite Y0 by reflexivity. lia.
    + intros py [|i] [|j] ei ej H1 H2 _ _; try reflexivity; cbn in *; try (destruct i; discriminate H1); destruct j; discriminate H2.
  - destruct (IH (lx - dl) (ly - dl) (yofs + dl * 32) dl yt (es ++ [((lx, ly), q)]) _ ltac:(lia) ltac:(lia) ltac:(lia) ltac:(lia) R') as (st' & new & E & R2 & F2 & C2 & U2).
    { intros e I G. apply in_app_or in I as [I | [<- | []]]; cbn in G |- *; [|lia]. specialize (D e I ltac:(lia)). lia. }
    exists st', (((lx, ly), q) :: new). split; [exact E|]. split; [now rewrite <- app_assoc in R2|]. split; [|split].
    + intros e [<- | I].
      * exists 0. cbn [fst snd]. rewrite !Z.sub_0_r. unfold q. cbn [q_x q_y q_w q_h q_xofs q_yofs]. repeat split; try lia.
      * destruct (F2 e I) as (k & K). exists (k + dl). destruct K as (K1 & K2 & K3 & K4 & K5 & K6 & K7 & K8 & K9 & K10 & K11 & K12).
        rewrite K2. repeat split; try lia. f_equal; lia.
    + intros Dl py Py. destruct (Z.lt_ge_cases py yt) as [H | H].
      * destruct (C2 ltac:(lia) py ltac:(lia)) as (e & I & Re). exists e. split; [now right|exact Re].
      * exists ((lx, ly), q). split; [now left|]. unfold row, q. cbn [snd q_y q_h]. lia.
    + assert (Dj : forall py j e, nth_error new j = Some e -> row b e py -> row b ((lx, ly), q) py -> False).
      { intros py j e N Re Rq. apply nth_error_In in N. apply F2 in N as (k & K). unfold row, q in *. cbn [snd q_y q_h] in *. lia. }
      intros py [|i] [|j] ei ej H1 H2 R1 Rj; cbn [nth_error] in *; [reflexivity| | |].
      * apply some_inj in H1. subst ei. exfalso. eapply Dj; eassumption.
      * apply some_inj in H2. subst ej. exfalso. eapply Dj; eassumption.
      * f_equal. eapply U2; eassumption.
Qed.

(** ---- the strips of a building ---- *)
Record par := mk_par { p_lx : Z; p_ly : Z; p_x : Z; p_w : Z; p_xofs : Z; p_yofs : Z }.
Definition fromp (b : building) (p : par) (e : entry) : Prop := from b (p_lx p) (p_ly p) (p_x p) (p_w p) (p_xofs p) (p_yofs p) (b_height b) e.
Definition addp (b : building) (p : par) : pieces -> option pieces := add_strip b (p_lx p) (p_ly p) (p_x p) (p_w p) (p_xofs p) (p_yofs p).
Fixpoint run (b : building) (ps : list par) (st : pieces) : option pieces :=
  match ps with [] => Some st | p :: ps => do st <- addp b p st; run b ps st end.
Definition left_par (b : building) (i : Z) : par := mk_par (b_w b) i (- b_xofs b - 32 * (b_h b - i + 1) + 1) 32 (-31) ((b_h b - i) * 16).
Definition mid_par (b : building) : par := mk_par (b_w b) (b_h b) (- b_xofs b - 31) 64 (-31) 0.
Definition right_par (b : building) (i : Z) : par := mk_par (b_w b - i) (b_h b) (- b_xofs b + i * 32 + 1) 32 1 (i * 16).
Definition pars (b : building) : list par := map (left_par b) (range1 (b_h b)) ++ [mid_par b] ++ map (right_par b) (range1 (b_w b)).

Lemma run_app b ps qs st : run b (ps ++ qs) st = (do st <- run b ps st; run b qs st).
Proof. revert st. induction ps as [|p ps IH]; intros st; cbn [run app]; [reflexivity|]. destruct (addp b p st); cbn [bind]; [apply IH|reflexivity]. Qed.
Lemma run_strips b f l st : run b (map f l) st = strips (fun i => addp b (f i)) l st.
Proof. revert st. induction l as [|i l IH]; intros st; cbn [map run strips]; [reflexivity|]. destruct (addp b (f i) st); cbn [bind]; [apply IH|reflexivity]. Qed.
Lemma building_run b : building_sprites b = run b (pars b) ([], []).
Proof.
  unfold building_sprites, pars. rewrite run_app, run_strips. unfold addp, left_par. cbn [p_lx p_ly p_x p_w p_xofs p_yofs].
  destruct (strips _ (range1 (b_h b)) ([], [])) as [st|]; cbn [bind]; [|reflexivity]. rewrite run_app. cbn [run]. unfold addp at 1, mid_par. cbn [p_lx p_ly p_x p_w p_xofs p_yofs].
  destruct (add_strip _ _ _ _ _ _ _ _) as [st'|]; cbn [bind]; [|reflexivity]. rewrite run_strips. reflexivity.
Qed.

Definition diag (p : par) : Z := p_lx p - p_ly p.
Lemma run_spec b : 0 <= b_height b -> forall ps es st, rep es st -> Forall (fun p => 1 <= p_lx p /\ 1 <= p_ly p) ps -> NoDup (map diag ps) ->
  (forall e p, In e es -> In p ps -> fst (fst e) - snd (fst e) <> diag p) ->
  exists st' new, run b ps st = Some st' /\ rep (es ++ new) st'
    /\ (forall e, In e new -> exists p, In p ps /\ fromp b p e)
    /\ (forall p py, In p ps -> 0 <= py < b_height b -> exists e, In e new /\ fromp b p e /\ row b e py)
    /\ (forall p py i j ei ej, nth_error new i = Some ei -> nth_error new j = Some ej -> fromp b p ei -> fromp b p ej -> row b ei py -> row b ej py -> i = j).
Proof.
  intros H. induction ps as [|p ps IH]; intros es st R G N D.
  { exists st, []. rewrite app_nil_r. split; [reflexivity|]. split; [exact R|]. split; [intros e []|]. split; [intros p py []|]. intros p py [|i] j ei ej K; discriminate K. }
  inversion G as [|? ? [G1 G2] G3]; subst. inversion N as [|? ? N1 N2]; subst. cbn [run].
  destruct (strip_spec b (p_x p) (p_w p) (p_xofs p) (S (Z.to_nat (b_height b))) (p_lx p) (p_ly p) (p_yofs p) 1 (b_height b) es st G1 G2 H ltac:(lia) R)
    as (st1 & n1 & E1 & R1 & F1 & C1 & U1).
  { intros e I E. exfalso. exact (D e p I (or_introl eq_refl) E). }
  unfold addp, add_strip. rewrite E1. cbn [bind].
  destruct (IH (es ++ n1) st1 R1 G3 N2) as (st2 & n2 & E2 & R2 & F2 & C2 & U2).
  { intros e q I Iq. apply in_app_or in I as [I | I]; [apply D; [exact I|now right]|]. apply F1 in I as (k & _ & Ek & _). rewrite Ek. cbn.
    intros Q. apply N1. replace (diag p) with (diag q) by (unfold diag in *; lia). now apply in_map. }
  exists st2, (n1 ++ n2). split; [exact E2|]. split; [now rewrite <- app_assoc in R2|].
  assert (X1 : forall e, In e n1 -> fst (fst e) - snd (fst e) = diag p). { intros e I. apply F1 in I as (k & _ & Ek & _). rewrite Ek. unfold diag. cbn. lia. }
  assert (X2 : forall e, In e n2 -> fst (fst e) - snd (fst e) <> diag p).
  { intros e I. apply F2 in I as (q & Iq & k & _ & Ek & _). rewrite Ek. cbn. intros Q. apply N1. replace (diag p) with (diag q) by (unfold diag in *; lia). now apply in_map. }
  split; [|split].
  - intros e I. apply in_app_or in I as [I | I]; [exists p; split; [now left|now apply F1]|]. destruct (F2 e I) as (q & Q & Fq). exists q. split; [now right|exact Fq].
  - intros q py [<- | Q] Py.
    + destruct (C1 ltac:(lia) py Py) as (e & I & Re). exists e. split; [apply in_or_app; now left|]. split; [now apply F1|exact Re].
    + destruct (C2 q py Q Py) as (e & I & Fe & Re). exists e. split; [apply in_or_app; now right|]. auto.
  - intros q py i j ei ej Hi Hj Fi Fj Ri Rj.
    assert (Di : fst (fst ei) - snd (fst ei) = diag q) by (destruct Fi as (k & _ & Ek & _); rewrite Ek; unfold diag; cbn; lia).
    assert (Dj : fst (fst ej) - snd (fst ej) = diag q) by (destruct Fj as (k & _ & Ek & _); rewrite Ek; unfold diag; cbn; lia).
    destruct (Nat.lt_ge_cases i (length n1)) as [Li | Li]; destruct (Nat.lt_ge_cases j (length n1)) as [Lj | Lj].
    + rewrite nth_error_app1 in Hi, Hj by assumption. exact (U1 py i j ei ej Hi Hj Ri Rj).
    + rewrite nth_error_app1 in Hi by assumption. rewrite nth_error_app2 in Hj by assumption. apply nth_error_In in Hi, Hj. exfalso. apply (X2 ej Hj). rewrite Dj, <- Di. auto.
    + rewrite nth_error_app2 in Hi by assumption. rewrite nth_error_app1 in Hj by assumption. apply nth_error_In in Hi, Hj. exfalso. apply (X2 ei Hi). rewrite Di, <- Dj. auto.
    + rewrite nth_error_app2 in Hi, Hj by assumption. pose proof (U2 q py _ _ ei ej Hi Hj Fi Fj Ri Rj). lia.
Qed.

Lemma in_range1 n i : In i (range1 n) <-> 1 <= i < n.
Proof. unfold range1. rewrite in_map_iff. split; [intros (k & <- & K); apply in_seq in K; lia|]. intros H. exists (Z.to_nat i). split; [lia|]. apply in_seq. lia. Qed.
Lemma nodup_range1 n : NoDup (range1 n).
Proof. unfold range1. apply Injective_map_NoDup; [intros a b E; lia|apply seq_NoDup]. Qed.
Lemma in_pars b p : In p (pars b) <-> (exists i, 1 <= i < b_h b /\ p = left_par b i) \/ p = mid_par b \/ (exists i, 1 <= i < b_w b /\ p = right_par b i).
Proof.
  unfold pars. rewrite !in_app_iff, !in_map_iff. cbn [In]. split.
  - intros [(i & <- & I) | [[<- | []] | (i & <- & I)]]; [left; exists i; now rewrite <- in_range1|right; now left|right; right; exists i; now rewrite <- in_range1].
  - intros [(i & I & ->) | [-> | (i & I & ->)]]; [left; exists i; now rewrite in_range1|right; left; now left|right; right; exists i; now rewrite in_range1].
Qed.
Lemma nodup_app {A} (a b : list A) : NoDup a -> NoDup b -> (forall x, In x a -> In x b -> False) -> NoDup (a ++ b).
Proof.
  induction a as [|u a IH]; cbn; intros Na Nb D; [exact Nb|]. inversion Na; subst. constructor.
  - intros I. apply in_app_or in I as [I | I]; [auto|]. exact (D u (or_introl eq_refl) I).
  - apply IH; auto. intros x I J. exact (D x (or_intror I) J).
Qed.
Lemma nodup_diag b : NoDup (map diag (pars b)).
Proof.
  unfold pars. rewrite map_app. cbn [app map]. rewrite !map_map. apply nodup_app.
  - apply Injective_map_NoDup; [|apply nodup_range1]. intros i j E. unfold diag, left_par in E. cbn in E. lia.
  - constructor.
    + intros I. apply in_map_iff in I as (i & E & I). apply in_range1 in I. unfold diag, right_par, mid_par in E. cbn in E. lia.
    + apply Injective_map_NoDup; [|apply nodup_range1]. intros i j E. unfold diag, right_par in E. cbn in E. lia.
  - intros d I J. apply in_map_iff in I as (i & <- & I). apply in_range1 in I. destruct J as [E | J].
    + unfold diag, left_par, mid_par in E. cbn in E. lia.
    + apply in_map_iff in J as (j & E & J). apply in_range1 in J. unfold diag, left_par, right_par in E. cbn in E. lia.
Qed.

(** The entries of a building. *)
Lemma building_spec b : 1 <= b_w b -> 1 <= b_h b -> 0 <= b_height b ->
  exists st es, building_sprites b = Some st /\ rep es st
    /\ (forall e, In e es -> exists p, In p (pars b) /\ fromp b p e)
    /\ (forall p py, In p (pars b) -> 0 <= py < b_height b -> exists e, In e es /\ fromp b p e /\ row b e py)
    /\ (forall p py i j ei ej, nth_error es i = Some ei -> nth_error es j = Some ej -> fromp b p ei -> fromp b p ej -> row b ei py -> row b ej py -> i = j).
Proof.
  intros W H B. rewrite building_run. destruct (run_spec b B (pars b) [] ([], [])) as (st & new & E & R & Q).
  - repeat split. constructor.
  - apply Forall_forall. intros p I. apply in_pars in I as [(i & I & ->) | [-> | (i & I & ->)]]; cbn; lia.
  - apply nodup_diag.
  - intros e p [].
  - exists st, new. auto.
Qed.

Ltac pc := unfold left_par, mid_par, right_par; cbn [p_lx p_ly p_x p_w p_xofs p_yofs].
(** Columns of different strips do not meet; together they are the columns
    above the ground. *)
Lemma same_par b p q px : In p (pars b) -> In q (pars b) -> p_x p <= px < p_x p + p_w p -> p_x q <= px < p_x q + p_w q -> p = q.
Proof.
  intros P Q. apply in_pars in P as [(i & I & ->) | [-> | (i & I & ->)]]; apply in_pars in Q as [(j & J & ->) | [-> | (j & J & ->)]]; pc; intros A B; try reflexivity; try lia.
  - assert (i = j) as -> by lia. reflexivity.
  - assert (i = j) as -> by lia. reflexivity.
Qed.
Lemma par_exists b px : 1 <= b_w b -> 1 <= b_h b -> over_ground b px -> exists p, In p (pars b) /\ p_x p <= px < p_x p + p_w p.
Proof.
  intros W H [L R]. destruct (Z.lt_ge_cases px (- b_xofs b - 31)) as [A | A].
  - pose proof (Z.div_mod (- b_xofs b - px) 32 ltac:(lia)) as D. pose proof (Z.mod_pos_bound (- b_xofs b - px) 32 ltac:(lia)) as M.
    exists (left_par b (b_h b - (- b_xofs b - px) / 32)). split; [apply in_pars; left; eexists; split; [|reflexivity]; lia|]. pc. lia.
  - destruct (Z.lt_ge_cases px (- b_xofs b + 33)) as [B | B]; [exists (mid_par b); split; [apply in_pars; now (right; left)|pc; lia]|].
    pose proof (Z.div_mod (px + b_xofs b - 1) 32 ltac:(lia)) as D. pose proof (Z.mod_pos_bound (px + b_xofs b - 1) 32 ltac:(lia)) as M.
    exists (right_par b ((px + b_xofs b - 1) / 32)). split; [apply in_pars; right; right; eexists; split; [|reflexivity]; lia|]. pc. lia.
Qed.
Lemma par_over b p px : In p (pars b) -> p_x p <= px < p_x p + p_w p -> 1 <= b_w b -> 1 <= b_h b -> over_ground b px.
Proof. intros P. unfold over_ground. apply in_pars in P as [(i & I & ->) | [-> | (i & I & ->)]]; pc; lia. Qed.
Lemma par_tile b p e : 1 <= b_w b -> 1 <= b_h b -> In p (pars b) -> fromp b p e -> own_tile b (fst e).
Proof. intros W H P (k & K & E & A & B & _). rewrite E. unfold own_tile. cbn [fst snd]. apply in_pars in P as [(i & I & ->) | [-> | (i & I & ->)]]; unfold left_par, mid_par, right_par in *; cbn [p_lx p_ly p_x p_w p_xofs p_yofs] in *; lia. Qed.
Lemma par_place b p e px py : In p (pars b) -> fromp b p e -> appears b (snd e) (fst e) px py = belongs b px py.
Proof.
  intros P (k & K & E & A & B & X & W & XO & YO & _). unfold appears, belongs, screen. rewrite E, X, XO, YO. cbn [fst snd].
  apply in_pars in P as [(i & I & ->) | [-> | (i & I & ->)]]; pc; f_equal; lia.
Qed.

Lemma rep_index es st i t q : rep es st -> nth_error es i = Some (t, q) -> In (t, Z.of_nat i) (fst st) /\ nth_error (snd st) i = Some q.
Proof.
  intros (N & F & S) H. split.
  - rewrite F. clear - H. assert (G : forall k, In (t, Z.of_nat (k + i)) (combine (map fst es) (map Z.of_nat (seq k (length es))))).
    { revert i H. induction es as [|e es IH]; intros [|i] H k; try discriminate H; cbn [map length seq combine].
      - cbn in H. apply some_inj in H. subst. left. now rewrite Nat.add_0_r.
      - right. specialize (IH i H (S k)). now rewrite <- Nat.add_succ_comm. }
    exact (G 0%nat).
  - rewrite S. exact (map_nth_error snd i es H).
Qed.
Lemma rep_entry es st n q : rep es st -> nth_error (snd st) n = Some q -> exists t, nth_error es n = Some (t, q).
Proof. intros (N & F & S) H. unfold entry in *. rewrite S, nth_error_map in H. destruct (nth_error es n) as [[t q']|]; [|discriminate]. cbn in H. apply some_inj in H. subst. eauto. Qed.
Lemma rep_tile es st t n : rep es st -> In (t, n) (fst st) -> exists q, nth_error es (Z.to_nat n) = Some (t, q) /\ 0 <= n < len (snd st).
Proof.
  intros (N & F & S) H. unfold entry in *. rewrite F in H. assert (G : forall k (es : list entry), In (t, n) (combine (map fst es) (map Z.of_nat (seq k (length es)))) ->
    exists q, nth_error es (Z.to_nat n - k) = Some (t, q) /\ Z.of_nat k <= n < Z.of_nat (k + length es)).
  { clear. unfold entry. intros k es. revert k. induction es as [|[u v] es IH]; intros k H; [destruct H|]. cbn [map length seq combine fst] in H. destruct H as [H | H].
    - injection H as -> <-. exists v. rewrite Nat2Z.id, Nat.sub_diag. split; [reflexivity|]. cbn [length]. lia.
    - destruct (IH (S k) H) as (q & Q & B). exists q. cbn [length]. split; [|lia]. replace (Z.to_nat n - k)%nat with (S (Z.to_nat n - S k)) by lia. exact Q. }
  destruct (G 0%nat es H) as (q & Q & B). exists q. rewrite Nat.sub_0_r in Q. split; [exact Q|]. replace (len (snd st)) with (Z.of_nat (0 + length es)) by (rewrite S; unfold len; rewrite map_length; reflexivity). exact B.
Qed.
