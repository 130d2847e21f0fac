(** Proofs for C06. *)
From Coq Require Import ZArith List Bool Lia ZifyBool String.
From Verif Require Import Base BaseFacts RecordsModel RecordsProofs RecordsProofs2 EncodableProofs
  PropModel Action0Model SpecContainer ContainerProofs SpecProp PropProofs.
Import ListNotations.
Open Scope string_scope.
Open Scope list_scope.
Open Scope Z_scope.

Definition fmt_eq_dec : forall a b : fmt, {a = b} + {a <> b}.
Proof. decide equality. apply bool_dec. Defined.
Definition fmt_eqb (a b : fmt) : bool := if fmt_eq_dec a b then true else false.
Lemma fmt_eqb_eq : forall a b, fmt_eqb a b = true -> a = b.
Proof. intros a b H. unfold fmt_eqb in H. destruct (fmt_eq_dec a b); [assumption|discriminate]. Qed.

(** ** The tables *)
Definition entry_check (ft : Z) (t : list (Z * (string * fmt))) (e : Z * (string * fmt)) : bool :=
  let '(c, (n, f)) := e in
  (0 <=? c) && (c <? 256) &&
  match dict_get Z.eqb t c with Some (n', f') => String.eqb n n' && fmt_eqb f f' | None => false end &&
  (negb (forallb (fun e' => negb (String.eqb n (fst (snd e'))) || (fst e' <=? c)) t) ||
   match by_name ft n with Some (c', f') => (c' =? c) && fmt_eqb f' f | None => false end).
Definition table_check (x : Z * list (Z * (string * fmt))) : bool :=
  let '(ft, t) := x in
  (0 <=? ft) && (ft <=? 20) && match dict_get Z.eqb ACTION0_PROPS ft with Some t' =>
    (len t' =? len t) && forallb (fun p => let '((c, (n, f)), (c', (n', f'))) := p in (c =? c') && String.eqb n n' && fmt_eqb f f') (combine t' t)
    | None => false end &&
  forallb (entry_check ft t) t.
Lemma tables_checked : forallb table_check ACTION0_PROPS = true.
Proof. reflexivity. Qed.
Lemma combine_eq : forall t' t : list (Z * (string * fmt)), length t' = length t ->
  forallb (fun p => let '((c, (n, f)), (c', (n', f'))) := p in (c =? c') && String.eqb n n' && fmt_eqb f f') (combine t' t) = true -> t' = t.
Proof.
  induction t' as [|[c [n f]] t' IH]; intros [|[c' [n' f']] t] L H; cbn in L; try discriminate; [reflexivity|].
  cbn [combine forallb] in H. apply andb_prop in H as [H1 H2]. apply andb_prop in H1 as [H1 H3]. apply andb_prop in H1 as [H1 H4].
  apply fmt_eqb_eq in H3. apply String.eqb_eq in H4. apply Z.eqb_eq in H1. subst. f_equal. apply IH; [congruence|assumption].
Qed.
Lemma table_facts : forall ft t, In (ft, t) ACTION0_PROPS -> 0 <= ft <= 20 /\ dict_get Z.eqb ACTION0_PROPS ft = Some t.
Proof.
  intros ft t X. pose proof tables_checked as H. rewrite forallb_forall in H. specialize (H _ X). unfold table_check in H.
  apply andb_prop in H as [H _]. apply andb_prop in H as [H1 H2]. split; [lia|].
  destruct (dict_get Z.eqb ACTION0_PROPS ft) as [t'|]; [|discriminate]. apply andb_prop in H2 as [L C]. f_equal. apply combine_eq; [|assumption].
  unfold len in L. lia.
Qed.
Lemma has_prop_facts : forall ft code name f, has_prop ft code name f -> exists t, dict_get Z.eqb ACTION0_PROPS ft = Some t /\
  isbyte code /\ dict_get Z.eqb t code = Some (name, f) /\ by_name ft name = Some (code, f) /\ dict_get String.eqb (prop_dict t) name = Some (code, f).
Proof.
  intros ft code name f (t & X & Y & M). pose proof tables_checked as H. rewrite forallb_forall in H. specialize (H _ X). unfold table_check in H.
  apply andb_prop in H as [_ H]. rewrite forallb_forall in H. specialize (H _ Y). unfold entry_check in H.
  apply andb_prop in H as [H H3]. apply andb_prop in H as [H1 H2]. exists t.
  destruct (table_facts ft t X) as [_ G]. split; [exact G|]. split; [unfold isbyte; lia|].
  destruct (dict_get Z.eqb t code) as [[n' f']|]; [|discriminate]. apply andb_prop in H2 as [E1 E2].
  apply String.eqb_eq in E1. apply fmt_eqb_eq in E2. subst n' f'. split; [reflexivity|].
  assert (A : forallb (fun e' : Z * (string * fmt) => negb (String.eqb name (fst (snd e'))) || (fst e' <=? code)) t = true).
  { apply forallb_forall. intros [c [n g]] I. cbn [fst snd]. destruct (String.eqb name n) eqn:E; [|reflexivity].
    apply String.eqb_eq in E. subst n. specialize (M c g I). cbn [negb orb]. lia. }
  rewrite A in H3. cbn [negb orb] in H3. unfold by_name in *. rewrite G in *. cbn [bind] in *.
  destruct (dict_get String.eqb (prop_dict t) name) as [[c' f']|]; [|discriminate]. apply andb_prop in H3 as [E1 E2].
  apply fmt_eqb_eq in E2. assert (c' = code) by lia. subst. split; reflexivity.
Qed.

(** ** Values and properties *)
Lemma values_enc : forall f vs ws b n more, values_code f vs ws b -> length vs = n -> encode_values n f (vs ++ more) = Some b.
Proof.
  intros f vs ws b n more H. revert n. induction H as [|v w b vs ws c C _ IH]; intros n L; subst n; cbn [length encode_values app]; [reflexivity|].
  rewrite (codes_enc _ _ _ _ C). cbn [bind]. rewrite (IH _ eq_refl). reflexivity.
Qed.
Lemma values_rd : forall f vs ws b r, values_code f vs ws b -> rd_n (read_value f) (length vs) (b ++ r) = Some (ws, r).
Proof.
  intros f vs ws b r H. induction H as [|v w b vs ws c C _ IH]; cbn [length rd_n]; [reflexivity|]. rewrite <- app_assoc.
  rewrite (codes_rd _ _ _ _ _ C). cbn [bind]. now rewrite IH.
Qed.
Lemma prop_enc : forall ft count code name f vs ws b, has_prop ft code name f -> 0 <= count <= len vs ->
  values_code f (firstn (Z.to_nat count) vs) ws b -> encode_prop ft count (name, vs) = Some (code :: b).
Proof.
  intros ft count code name f vs ws b P L V. destruct (has_prop_facts _ _ _ _ P) as (t & _ & B & _ & N & _).
  unfold encode_prop. cbn [fst snd]. rewrite N. cbn [bind]. rewrite bytesb_ok by fb. cbn [bind].
  rewrite <- (firstn_skipn (Z.to_nat count) vs). rewrite (values_enc _ _ _ _ _ _ V); [reflexivity|].
  apply firstn_length_le. unfold len in L. lia.
Qed.
Lemma props_enc : forall ft count ps qs b, 0 <= count -> props_code ft count ps qs b -> concat_opt (map (encode_prop ft count) ps) = Some b.
Proof.
  intros ft count ps qs b K H. induction H as [|code name f vs ws b ps qs c P L V _ IH]; cbn [map concat_opt]; [reflexivity|].
  rewrite (prop_enc _ _ _ _ _ _ _ _ P (conj K L) V). cbn [bind]. rewrite IH. reflexivity.
Qed.
Lemma props_names : forall ft count ps qs b, props_code ft count ps qs b -> map fst qs = map fst ps.
Proof. intros ft count ps qs b H. induction H; cbn [map fst]; congruence. Qed.
Lemma props_rd : forall ft count t ps qs b, 0 <= count -> (ps <> [] -> dict_get Z.eqb ACTION0_PROPS ft = Some t) -> props_code ft count ps qs b ->
  forall done, NoDup (map fst done ++ map fst ps) -> read_props (length ps) t count done b = Some (done ++ qs).
Proof.
  intros ft count t ps qs b K T H. induction H as [|code name f vs ws b ps qs c P L V _ IH]; intros done N; cbn [length read_props].
  - now rewrite app_nil_r.
  - destruct (has_prop_facts _ _ _ _ P) as (t' & T' & B & G & _). rewrite T in T' by discriminate. apply some_inj in T'. subst t'.
    cbn [rd_B bind]. rewrite G. cbn [bind].
    assert (E : Z.to_nat count = length (firstn (Z.to_nat count) vs)) by (symmetry; apply firstn_length_le; unfold len in L; lia).
    rewrite E. rewrite (values_rd _ _ _ _ _ V). cbn [bind].
    cbn [map fst] in N. assert (F : ~ In name (map fst done)).
    { intro X. apply NoDup_remove_2 in N. apply N. apply in_or_app. now left. }
    rewrite (dict_set_fresh String.eqb String.eqb_eq) by assumption. rewrite IH.
    + now rewrite <- app_assoc.
    + intros _. apply T. discriminate.
    + rewrite map_app. cbn [map fst]. rewrite <- app_assoc. exact N.
Qed.
Lemma props_init : forall ft count ps qs b t, dict_get Z.eqb ACTION0_PROPS ft = Some t -> props_code ft count ps qs b ->
  forallb (fun p => match dict_get String.eqb (prop_dict t) (fst p) with Some _ => true | None => false end) ps = true /\
  forallb (fun p => match dict_get String.eqb (prop_dict t) (fst p) with Some _ => true | None => false end) qs = true.
Proof.
  intros ft count ps qs b t T H. induction H as [|code name f vs ws b ps qs c P L V _ [IH1 IH2]]; cbn [forallb]; [split; reflexivity|].
  destruct (has_prop_facts _ _ _ _ P) as (t' & T' & _ & _ & _ & N). rewrite T in T'. apply some_inj in T'. subst t'.
  cbn [fst]. rewrite N, IH1, IH2. split; reflexivity.
Qed.
Lemma qs_len : forall ft count ps qs b, props_code ft count ps qs b -> length qs = length ps.
Proof. intros ft count ps qs b H. induction H; cbn; congruence. Qed.

Lemma define_ok : forall a c b, define_codes a c b -> define_init a = Some a /\ define_data a = Some b /\
  (exists d, b = 0 :: d /\ decode_action0 d = Some c).
Proof.
  intros a c b H. destruct H as [ft first count ps qs b F K L N [t T] P]. destruct (table_facts ft t T) as [R G].
  destruct (props_init _ _ _ _ _ t G P) as [I1 I2].
  split; [|split].
  - unfold define_init. cbn [df_feature df_props]. rewrite G. cbn [bind]. rewrite I1. reflexivity.
  - unfold define_data. cbn [df_feature df_first df_count df_props]. pose proof (len_nonneg ps).
    rewrite !pack_B_ok by lia. rewrite pack_H_word by lia. cbn [concat_opt bind]. rewrite (props_enc _ _ _ _ _ (proj1 K) P). cbn [bind].
    rewrite app_nil_r. reflexivity.
  - eexists. split; [reflexivity|]. unfold decode_action0. cbn [app rd_B bind]. rewrite feature_ok by assumption. cbn [bind].
    pose proof (rd_ext_word first b F) as X. cbn [app] in X. rewrite X. cbn [bind].
    destruct (len ps =? 0) eqn:E.
    + destruct ps as [|p ps]; [|unfold len in E; cbn in E; lia]. inversion P. subst. change (Z.to_nat (len [])) with 0%nat.
      cbn [read_props bind]. unfold define_init. cbn [df_feature df_props forallb]. rewrite G. reflexivity.
    + rewrite G. cbn [bind]. rewrite len_nat. rewrite (props_rd ft count t ps qs b (proj1 K) (fun _ => G) P []) by exact N.
      cbn [bind app]. unfold define_init. cbn [df_feature df_props]. rewrite G. cbn [bind]. rewrite I2. reflexivity.
Qed.
