(** From the bytes of a Switch to the game's evaluation of it. *)
From Coq Require Import ZArith List Bool Lia ZifyBool.
From Verif Require Import Base BaseFacts CommonModel CommonProofs RecordsModel RecordsProofs Action14Model
  Action14Proofs VA2Model SpecVA2 VA2Proofs VA2Compile.
Import ListNotations.
Open Scope Z_scope.

Definition enc_last (j : adjust) : bytes :=
  j_var j :: (if has_param (j_var j) then [j_param j] else []) ++ j_shift j :: le4 (j_mask j).
Fixpoint enc_fin (j : adjust) (l : list adjust) : bytes :=
  match l with [] => enc_last j | k :: l => enc_j j ++ j_op k :: enc_fin k l end.

Lemma clear5 : forall s, 0 <= s < 32 -> Z.land (32 + s) (Z.lnot 32) = s.
Proof.
  intros s H. apply Z.bits_inj'. intros n Hn. rewrite Z.land_spec, Z.lnot_spec by lia.
  replace (32 + s) with (Z.lor s (Z.shiftl 1 5)) by (rewrite lor_shift by (try change (2 ^ 5) with 32; lia); change (2 ^ 5) with 32; lia).
  rewrite Z.lor_spec.
  change (Z.shiftl 1 5) with (2 ^ 5). change 32 with (2 ^ 5). rewrite Z.pow2_bits_eqb by lia.
  destruct (5 =? n) eqn:E.
  - apply Z.eqb_eq in E; subst n. cbn [negb]. rewrite andb_false_r. symmetry.
    destruct (Z.eq_dec s 0) as [->|]; [reflexivity|].
    apply Z.bits_above_log2; [lia|]. apply Z.log2_lt_pow2; lia.
  - cbn [negb]. now rewrite orb_false_r, andb_true_r.
Qed.

Lemma mark_last : forall pre j, wf_j j -> mark_end (pre ++ enc_j j) = Some (pre ++ enc_last j).
Proof.
  intros pre j W. unfold enc_j, enc_last.
  set (h := j_var j :: (if has_param (j_var j) then [j_param j] else [])).
  set (t := le4 (j_mask j)).
  assert (L : length t = 4%nat) by reflexivity.
  change (pre ++ j_var j :: (if has_param (j_var j) then [j_param j] else []) ++ (32 + j_shift j) :: t)
    with (pre ++ h ++ (32 + j_shift j) :: t).
  change (pre ++ j_var j :: (if has_param (j_var j) then [j_param j] else []) ++ j_shift j :: t)
    with (pre ++ h ++ j_shift j :: t).
  rewrite !app_assoc. set (q := pre ++ h). unfold mark_end.
  assert (E : length (q ++ (32 + j_shift j) :: t) = (length q + 5)%nat)
    by (rewrite app_length; cbn [length]; rewrite L; lia).
  rewrite E. replace (length q + 5 - 5)%nat with (length q) by lia.
  assert ((5 <=? length q + 5)%nat = true) as -> by (apply Nat.leb_le; lia).
  rewrite app_nth2, Nat.sub_diag by lia. cbn [nth].
  pose proof (w_shift _ W). rewrite clear5 by lia.
  unfold mk_bytes, bytesb. cbn [forallb]. unfold byteb. 
  assert ((0 <=? j_shift j) && (j_shift j <? 256) && true = true) as -> by lia. cbn [bind].
  rewrite firstn_app_len, skipn_S_app. cbn [app]. reflexivity.
Qed.

Lemma mark_seq : forall l j pre, wf_j j -> Forall wf_j l ->
  mark_end (pre ++ enc_seq j l) = Some (pre ++ enc_fin j l).
Proof.
  induction l as [|k l IH]; intros j pre W WL; unfold enc_seq, enc_tail in *; cbn [map concat enc_fin] in *.
  - rewrite app_nil_r. now apply mark_last.
  - inversion WL; subst. cbn [app].
    change (pre ++ enc_j j ++ j_op k :: enc_j k ++ concat (map (fun j => j_op j :: enc_j j) l))
      with (pre ++ enc_j j ++ [j_op k] ++ (enc_j k ++ concat (map (fun j => j_op j :: enc_j j) l))).
    change (pre ++ enc_j j ++ j_op k :: enc_fin k l) with (pre ++ enc_j j ++ [j_op k] ++ enc_fin k l).
    specialize (IH k (pre ++ enc_j j ++ [j_op k]) H1 H2).
    rewrite <- !app_assoc in IH. exact IH.
Qed.

Lemma rd_le4 : forall v r, rng v -> rd_I (le4 v ++ r) = Some (v, r).
Proof. intros v r H. unfold rng in H. unfold le4. cbn [app]. apply rd_I_mod. lia. Qed.

Lemma bit5_set : forall s, 0 <= s < 32 -> Z.testbit (32 + s) 5 = true.
Proof. intros s H. rewrite Z.testbit_eqb by lia. change (2 ^ 5) with 32. lia. Qed.
Lemma bit5_clear : forall s, 0 <= s < 32 -> Z.testbit s 5 = false.
Proof. intros s H. rewrite Z.testbit_eqb by lia. change (2 ^ 5) with 32. lia. Qed.

Lemma parse_step : forall (more : bool) j r fuel (first : bool) op, wf_j j -> op = (if first then 0 else j_op j) ->
  parse_adjusts (S fuel) first ((if first then [] else [j_op j]) ++
     (j_var j :: (if has_param (j_var j) then [j_param j] else []) ++
      ((if more then 32 else 0) + j_shift j) :: le4 (j_mask j)) ++ r) =
  if more then do (l, d) <- parse_adjusts fuel false r; Some (set_op j op :: l, d)
  else Some ([set_op j op], r).
Proof.
  intros more j r fuel first op W ->.
  pose proof (w_shift _ W).
  assert (E1 : ((if more then 32 else 0) + j_shift j) / 64 = 0) by (destruct more; lia).
  assert (E2 : ((if more then 32 else 0) + j_shift j) mod 32 = j_shift j) by (destruct more; lia).
  assert (E3 : Z.testbit ((if more then 32 else 0) + j_shift j) 5 = more).
  { destruct more; [now apply bit5_set|]. rewrite Z.add_0_l. now apply bit5_clear. }
  assert (Ej : forall o, mkAdj o (j_var j) (j_param j) (j_shift j) 0 (j_mask j) 0 0 = set_op j o).
  { intro o. unfold set_op. now rewrite (w_type _ W), (w_add _ W), (w_div _ W). }
  set (sb := (if more then 32 else 0) + j_shift j) in *. clearbody sb.
  pose proof (w_param0 _ W) as Hp0. pose proof (w_mask _ W) as Hm.
  destruct first; cbn [parse_adjusts app]; repeat (rewrite rd_B_cons; cbn [bind]); cbn [bind];
    repeat (rewrite rd_B_cons; cbn [bind]);
    (destruct (has_param (j_var j)) eqn:Ep; [|specialize (Hp0 eq_refl)]); cbn [app];
    repeat (rewrite rd_B_cons; cbn [bind]); cbn [bind];
    repeat (rewrite rd_B_cons; cbn [bind]);
    rewrite (rd_le4 _ _ Hm); cbn [bind]; rewrite E1; change (0 =? 0) with true; cbv iota; cbn [bind];
    rewrite E2, E3, <- Ej; first [reflexivity | rewrite Hp0; reflexivity].
Qed.

Lemma set_op_self : forall j, set_op j (j_op j) = j.
Proof. intros []; reflexivity. Qed.

Lemma parse_fin : forall l j r fuel (first : bool), wf_j j -> Forall wf_j l -> (length l < fuel)%nat ->
  parse_adjusts fuel first ((if first then [] else [j_op j]) ++ enc_fin j l ++ r) =
  Some (set_op j (if first then 0 else j_op j) :: l, r).
Proof.
  induction l as [|k l IH]; intros j r fuel first W WL Hf; (destruct fuel as [|fuel]; [cbn in Hf; lia|]);
    cbn [enc_fin].
  - unfold enc_last. rewrite <- (Z.add_0_l (j_shift j)). rewrite (parse_step false j r fuel first _ W eq_refl). reflexivity.
  - inversion WL; subst. rewrite <- app_assoc. unfold enc_j.
    rewrite (parse_step true j ((j_op k :: enc_fin k l) ++ r) fuel first _ W eq_refl).
    pose proof (IH k r fuel false H1 H2 ltac:(cbn in Hf; lia)) as E. cbn [app] in E |- *.
    rewrite E. cbn [bind]. now rewrite set_op_self.
Qed.

(** ** Ranges *)
Definition entry (r : srange) : list (Z * Z * Z) :=
  let id := get_ref_id (r_ref r) in
  if (r_low r <? 0) && (0 <=? r_high r)
  then [(id, u32 (r_low r), 2 ^ 32 - 1); (id, 0, u32 (r_high r))]
  else [(id, u32 (r_low r), u32 (r_high r))].

Lemma pack_i_inv : forall v b, pack_i v = Some b -> -2147483648 <= v < 2147483648 /\ pack_I (u32 v) = Some b.
Proof. intros v b H. unfold pack_i in H. inv_opt. split; [lia|assumption]. Qed.

Lemma rd_range_pack : forall g lo hi b r x, concat_opt (pack_H g :: pack_i lo :: pack_i hi :: x) = Some b ->
  exists c, concat_opt x = Some c /\ rd_range (b ++ r) = Some ((g, u32 lo, u32 hi), c ++ r) /\ length b = (10 + length c)%nat.
Proof.
  intros g lo hi b r x H. cbn [concat_opt] in H.
  apply bind_some in H as [b1 [H1 H]]. apply bind_some in H as [b' [H' H]].
  apply bind_some in H' as [b2 [H2 H']]. apply bind_some in H' as [b'' [H'' H']].
  apply bind_some in H'' as [b3 [H3 H'']]. apply bind_some in H'' as [c [Hc H'']].
  injection H'' as <-. injection H' as <-. injection H as <-.
  apply pack_i_inv in H2 as [_ H2]. apply pack_i_inv in H3 as [_ H3].
  exists c. split; [assumption|]. split.
  - unfold rd_range. rewrite <- app_assoc, (rd_H_pack _ _ _ H1). cbn [bind].
    rewrite <- app_assoc, (rd_I_pack _ _ _ H2). cbn [bind].
    rewrite <- app_assoc, (rd_I_pack _ _ _ H3). cbn [bind]. reflexivity.
  - rewrite !app_length. apply pack_H_inv in H1 as [_ ->]. apply pack_I_inv in H2 as [_ ->].
    apply pack_I_inv in H3 as [_ ->]. reflexivity.
Qed.

Lemma range_read : forall r b t, range_data r = Some b ->
  rd_n rd_range (length (entry r)) (b ++ t) = Some (entry r, t) /\ length b = (10 * length (entry r))%nat.
Proof.
  intros r b t H. unfold range_data in H. unfold entry.
  destruct ((r_low r <? 0) && (0 <=? r_high r)); cbn [length rd_n].
  - apply (rd_range_pack _ _ _ _ t) in H as [c [Hc [E L]]]. rewrite E. cbn [bind].
    apply (rd_range_pack _ _ _ _ t) in Hc as [c' [Hc' [E' L']]]. rewrite E'. cbn [bind].
    cbn [concat_opt] in Hc'. injection Hc' as <-. cbn [app length] in *. split; [reflexivity|lia].
  - apply (rd_range_pack _ _ _ _ t) in H as [c [Hc [E L]]]. rewrite E. cbn [bind].
    cbn [concat_opt] in Hc. injection Hc as <-. cbn [app length] in *. split; [reflexivity|lia].
Qed.

Lemma rd_n_app : forall {X} (rd : bytes -> option (X * bytes)) n m d l d' l' d'',
  rd_n rd n d = Some (l, d') -> rd_n rd m d' = Some (l', d'') -> rd_n rd (n + m) d = Some (l ++ l', d'').
Proof.
  intros X rd. induction n as [|n IH]; intros m d l d' l' d'' H1 H2; cbn [rd_n plus] in *.
  - inv_opt. exact H2.
  - apply bind_some in H1 as [[x d1] [H H1]]. cbv beta iota in H1.
    apply bind_some in H1 as [[k d2] [H' H1]]. cbv beta iota in H1. injection H1 as <- <-.
    rewrite H. cbn [bind]. rewrite (IH m d1 k d2 l' d'' H' H2). reflexivity.
Qed.

Lemma ranges_read : forall rs b t, concat_opt (map range_data rs) = Some b ->
  rd_n rd_range (length (concat (map entry rs))) (b ++ t) = Some (concat (map entry rs), t)
  /\ length b = (10 * length (concat (map entry rs)))%nat.
Proof.
  induction rs as [|r rs IH]; intros b t H; cbn [map concat_opt concat] in *.
  - injection H as <-. split; reflexivity.
  - apply bind_some in H as [b1 [H1 H]]. apply bind_some in H as [b2 [H2 H]]. injection H as <-.
    rewrite <- app_assoc. destruct (range_read r b1 (b2 ++ t) H1) as [E1 L1].
    destruct (IH b2 t H2) as [E2 L2]. rewrite !app_length. split; [|lia].
    eapply rd_n_app; eassumption.
Qed.

(** Signed ranges in the order given; the first containing the value wins. *)
Lemma s32_u32 : forall x, -2147483648 <= x < 2147483648 -> s32 (u32 x) = x.
Proof. intros x H. unfold s32, u32. change (2 ^ 32) with 4294967296. change (2 ^ 31) with 2147483648. destruct ((x mod 4294967296) mod 4294967296 <? 2147483648) eqn:E; lia. Qed.

Lemma in_range_bytes : forall r b, range_data r = Some b ->
  -2147483648 <= r_low r < 2147483648 /\ -2147483648 <= r_high r < 2147483648.
Proof.
  intros r b H. unfold range_data in H. destruct ((r_low r <? 0) && (0 <=? r_high r)) eqn:E; cbn [concat_opt] in H;
    repeat match goal with
    | H : bind _ _ = Some _ |- _ => let x := fresh "x" in let Hx := fresh "Hx" in apply bind_some in H as [x [Hx H]]; cbv beta in H
    | H : pack_i _ = Some _ |- _ => apply pack_i_inv in H as [? _]
    end; lia.
Qed.

Lemma pick_app : forall a b d v, pick (a ++ b) d v = pick a (pick b d v) v.
Proof. induction a as [|[[g lo] hi] a IH]; intros; cbn [app pick]; [reflexivity|]. now rewrite IH. Qed.

Lemma pick_entry : forall r b d v, range_data r = Some b -> ~ (r_high r < 0 <= r_low r) -> rng v ->
  pick (entry r) d v = if (r_low r <=? s32 v) && (s32 v <=? r_high r) then get_ref_id (r_ref r) else d.
Proof.
  intros r b d v H N Rv. apply in_range_bytes in H as [Hl Hh]. unfold entry, rng in *.
  assert (S : s32 v = if v <? 2147483648 then v else v - 4294967296).
  { unfold s32. rewrite u32_id by assumption. reflexivity. }
  assert (U : forall x, -2147483648 <= x < 2147483648 -> u32 x = if x <? 0 then x + 4294967296 else x).
  { intros x Hx. unfold u32. change (2 ^ 32) with 4294967296. destruct (x <? 0) eqn:E; lia. }
  rewrite S. destruct ((r_low r <? 0) && (0 <=? r_high r)) eqn:E; cbn [pick]; rewrite !U by assumption;
    change (2 ^ 32) with 4294967296; 
  destruct (v <? 2147483648) eqn:Ev; destruct (r_low r <? 0) eqn:El; destruct (r_high r <? 0) eqn:Eh; 
    repeat match goal with |- context [if ?c then get_ref_id _ else _] => destruct c eqn:? end; try reflexivity; lia.
Qed.

Lemma pick_ranges : forall rs b d v, concat_opt (map range_data rs) = Some b ->
  Forall (fun r => ~ (r_high r < 0 <= r_low r)) rs -> rng v ->
  pick (concat (map entry rs)) (get_ref_id d) v = get_ref_id (choose rs d (s32 v)).
Proof.
  induction rs as [|r rs IH]; intros b d v H F Rv; cbn [map concat concat_opt choose] in *; [reflexivity|].
  apply bind_some in H as [b1 [H1 H]]. apply bind_some in H as [b2 [H2 H]]. inversion F; subst.
  rewrite pick_app, (pick_entry _ _ _ _ H1) by assumption.
  rewrite (IH _ _ _ H2) by assumption. destruct ((r_low r <=? s32 v) && (s32 v <=? r_high r)); reflexivity.
Qed.

(** ** Lines *)
Section Lines.
Variable A : Type.
Variable G : game A.
Hypothesis CALLS : calls_clean G.
Variable tab : name -> option vdata.

Lemma rest_good : forall l c code, inv c -> Forall (fun e => supported tab e = true) l ->
  compile_rest tab l c = Some code ->
  exists js, code = enc_tail js /\ Forall wf_j js /\
  forall s v0 v s' m, rel A c s m -> rng v0 -> eval_lines G user_reg tab (c_subs c) l v0 s = Some (v, s') ->
    exists c' m', exec_all G js (v0, m) = (v, m') /\ rel A c' s' m' /\ rng v.
Proof.
  induction l as [|e l IH]; intros c code I F H; cbn [compile_rest eval_lines] in *.
  - injection H as <-. exists []. split; [reflexivity|]. split; [constructor|].
    intros s v0 v s' m R Rv E. injection E as <- <-. exists c, m. auto.
  - apply bind_some in H as [[[isv cd] c1] [H1 H]]. cbv beta iota in H.
    apply bind_some in H as [rest [H2 H]]. cbv beta in H. injection H as <-. inversion F as [|? ? Se Sl]; subst.
    destruct (compile_good A G CALLS tab e c isv cd c1 I Se H1) as [I1 [X [j [jl [Ej [Wj [Wl [_ [_ Ex]]]]]]]]].
    destruct (IH c1 rest I1 Sl H2) as [js [Er [Wr Exr]]].
    exists ((set_op j 15 :: jl) ++ js). split; [|split].
    + subst cd rest. unfold enc_seq. cbn [app]. unfold enc_tail. cbn [map concat].
      rewrite map_app, concat_app. cbn [app]. now rewrite app_assoc.
    + apply Forall_app. split; [|assumption]. constructor; [apply wf_set_op; [assumption|lia]|assumption].
    + intros s v0 v s' m R Rv E. apply bind_some in E as [[v1 s1] [E1 E]]. cbv beta iota in E.
      destruct (Ex s v1 s1 m v0 R E1) as [m1 [X1 [R1 [_ Rv1]]]].
      rewrite <- (e_subs _ _ X) in E. destruct (Exr s1 v1 v s' m1 R1 Rv1 E) as [c' [m' [X2 [R2 Rv2]]]].
      exists c', m'. rewrite exec_all_app, X1. auto.
Qed.

Lemma exec_first : forall j m, wf_j j -> exec G (set_op j 0) (0, m) = exec G (set_op j 15) (0, m).
Proof.
  intros j m W. unfold exec. cbn [fst snd]. rewrite !load_set_op, !set_op_op.
  destruct (load G j 0 m) as [v m'] eqn:L. unfold apply_op. change (0 =? 14) with false.
  change (0 =? 16) with false. change (15 =? 14) with false. change (15 =? 16) with false. cbv iota.
  cbn [arith]. rewrite Z.add_0_l, u32_id; [reflexivity|].
  unfold load in L. rewrite (w_type _ W) in L. change (0 =? 1) with false in L. change (0 =? 2) with false in L. cbv iota in L.
  destruct (if j_var j =? 123 then _ else _) as [w m0]. injection L as <- _.
  apply mask_rng, (w_mask _ W).
Qed.

Lemma lines_good : forall subs l code, Forall (fun e => supported tab e = true) l ->
  compile_lines tab subs l = Some code ->
  exists j js, code = enc_seq j js /\ wf_j j /\ Forall wf_j js /\
  forall m v s', eval_lines G user_reg tab subs l 0 (mkU (tmp m) (prm m) [] (aux m)) = Some (v, s') ->
    exists m', exec_all G (set_op j 0 :: js) (0, m) = (v, m') /\ rng v /\
     (forall r, user_reg r = true -> tmp m' r = u_tmp s' r) /\ (forall r, prm m' r = u_prm s' r) /\ aux m' = u_aux s'.
Proof.
  intros subs l code F H. destruct l as [|e l]; [discriminate|]. cbn [compile_lines eval_lines] in *.
  apply bind_some in H as [[[isv cd] c1] [H1 H]]. cbv beta iota in H.
  apply bind_some in H as [rest [H2 H]]. cbv beta in H. injection H as <-. inversion F as [|? ? Se Sl]; subst.
  destruct (compile_good A G CALLS tab e _ isv cd c1 (inv_init subs) Se H1) as [I1 [X [j [jl [Ej [Wj [Wl [_ [_ Ex]]]]]]]]].
  destruct (rest_good l c1 rest I1 Sl H2) as [js [Er [Wr Exr]]].
  exists j, (jl ++ js). split; [|split; [assumption|split]].
  - subst. unfold enc_seq. now rewrite enc_tail_app, app_assoc.
  - now apply Forall_app.
  - intros m v s' E. apply bind_some in E as [[v1 s1] [E1 E]]. cbv beta iota in E.
    assert (R0 : rel A (ctx_init 128 subs) (mkU (tmp m) (prm m) [] (aux m)) m) by (constructor; cbn; auto; discriminate).
    destruct (Ex _ v1 s1 m 0 R0 E1) as [m1 [X1 [R1 [_ Rv1]]]].
    pose proof (e_subs _ _ X) as Es. cbn [ctx_init c_subs] in Es. rewrite <- Es in E.
    destruct (Exr s1 v1 v s' m1 R1 Rv1 E) as [c' [m' [X2 [R2 Rv2]]]].
    exists m'. cbn [exec_all]. rewrite exec_first by assumption.
    change (exec_all G (jl ++ js) (exec G (set_op j 15) (0, m))) with (exec_all G ((set_op j 15 :: jl) ++ js) (0, m)).
    rewrite exec_all_app, X1. split; [assumption|]. split; [assumption|]. split; [apply R2|]. split; apply R2.
Qed.

Lemma enc_fin_len : forall js j, (length js < length (enc_fin j js))%nat.
Proof.
  induction js as [|k js IH]; intro j; cbn [enc_fin length].
  - unfold enc_last. cbn [length]. lia.
  - rewrite app_length. cbn [length]. specialize (IH k). lia.
Qed.

Theorem switch_good : forall sw d, Forall (fun e => supported tab e = true) (sw_lines sw) ->
  switch_data tab sw = Some d ->
  exists g, game_parse d = Some g /\ g_feature g = sw_feature sw /\ g_id g = sw_ref_id sw /\
    g_related g = sw_related sw /\ g_default g = get_ref_id (sw_default sw) /\
    (forall m v s', eval_lines G user_reg tab (sw_subs sw) (sw_lines sw) 0 (mkU (tmp m) (prm m) [] (aux m)) = Some (v, s') ->
     exists m', game_value G g m = (v, m') /\
      0 <= v < 2 ^ 32 /\
      (forall r, user_reg r = true -> tmp m' r = u_tmp s' r) /\ (forall r, prm m' r = u_prm s' r) /\ aux m' = u_aux s') /\
    (Forall (fun r => ~ (r_high r < 0 <= r_low r)) (sw_ranges sw) ->
     forall v, 0 <= v < 2 ^ 32 ->
       pick (g_ranges g) (g_default g) v = get_ref_id (choose (sw_ranges sw) (sw_default sw) (s32 v))).
Proof.
  intros sw d F H. unfold switch_data in H.
  apply bind_some in H as [h [Hh H]]. cbv beta in H.
  apply bind_some in H as [code [Hc H]]. cbv beta in H.
  apply bind_some in H as [code' [Hm H]]. cbv beta in H.
  apply bind_some in H as [rs [Hr H]]. cbv beta in H.
  apply bind_some in H as [n [Hn H]]. cbv beta in H.
  apply bind_some in H as [df [Hd H]]. cbv beta in H. injection H as <-.
  apply mk_bytes_inv in Hh as [_ ->].
  destruct (lines_good _ _ _ F Hc) as [j [js [-> [Wj [Wjs Ex]]]]].
  pose proof (mark_seq js j [] Wj Wjs) as Hm'. cbn [app] in Hm'. rewrite Hm' in Hm. injection Hm as <-.
  apply mk_bytes_inv in Hn as [Bn ->].
  destruct (ranges_read _ _ df Hr) as [Er Lr].
  assert (En : Z.to_nat (len rs / 10) = length (concat (map entry (sw_ranges sw)))).
  { unfold len. rewrite Lr. lia. }
  exists (mkGS (sw_feature sw) (sw_ref_id sw) (sw_related sw) (set_op j 0 :: js)
            (concat (map entry (sw_ranges sw))) (get_ref_id (sw_default sw))).
  split.
  - unfold game_parse. cbn [app]. rewrite !rd_B_cons. cbn [bind]. change (2 =? 2) with true. cbv iota.
    rewrite !rd_B_cons. cbn [bind]. rewrite !rd_B_cons. cbn [bind]. rewrite !rd_B_cons. cbn [bind].
    assert (((if sw_related sw then 138 else 137) =? 137) || ((if sw_related sw then 138 else 137) =? 138) = true) as ->
      by (destruct (sw_related sw); reflexivity).
    rewrite (parse_fin js j ([len rs / 10] ++ rs ++ df) _ true Wj Wjs)
      by (rewrite app_length; pose proof (enc_fin_len js j); lia).
    cbn [bind app]. rewrite rd_B_cons. cbn [bind]. rewrite En, Er. cbn [bind].
    rewrite <- (app_nil_r df). rewrite (rd_H_pack _ _ _ Hd). cbn [bind].
    assert (((if sw_related sw then 138 else 137) =? 138) = sw_related sw) as -> by (destruct (sw_related sw); reflexivity).
    reflexivity.
  - cbn [g_feature g_id g_related g_ranges g_default]. do 4 (split; [reflexivity|]). split.
    + intros m v s' E. destruct (Ex m v s' E) as [m' [X [Rv [H1 [H2 H3]]]]].
      exists m'. unfold game_value. cbn [g_adjusts]. auto 10.
    + intros N v Rv. eapply pick_ranges; eassumption.
Qed.
End Lines.
