(** C05, C06: what the encoder accepts; normal forms. *)
From Coq Require Import ZArith List Bool Lia ZifyBool String.
From Verif Require Import Base BaseFacts CommonModel SpecCommon CommonProofs CommonProofs2 RecordsModel RecordsProofs RecordsProofs2 EncodableProofs
  Action2Model PropModel Action0Model SpecContainer ContainerProofs SpecProp PropProofs Action0Proofs.
Import ListNotations.
Open Scope string_scope.
Open Scope list_scope.
Open Scope Z_scope.

Lemma mk_bytes_F : forall l b, mk_bytes l = Some b -> Forall isbyte l /\ b = l.
Proof.
  intros l b H. apply mk_bytes_inv in H as [H ->]. split; [|reflexivity]. unfold bytesb in H. rewrite forallb_forall in H.
  apply Forall_forall. intros x X. specialize (H x X). unfold byteb in H. unfold isbyte. lia.
Qed.
Lemma pack_H_word_inv : forall n b, pack_H n = Some b -> 0 <= n <= 65535 /\ b = word n.
Proof. intros n b H. pose proof H as H'. apply pack_H_inv in H as [R _]. split; [lia|]. rewrite pack_H_word in H' by lia. congruence. Qed.
Lemma pack_I_dword_inv : forall n b, pack_I n = Some b -> 0 <= n < 4294967296 /\ b = dword n.
Proof. intros n b H. pose proof H as H'. apply pack_I_inv in H as [R _]. split; [assumption|]. rewrite pack_I_dword_ok in H' by lia. congruence. Qed.
Lemma label_inv : forall l b, encode_label l = Some b -> label_bytes l b.
Proof.
  intros [n|c] b H; cbn [encode_label] in H.
  - apply pack_I_dword_inv in H as [R ->]. now constructor.
  - inv_opt. constructor. unfold len in C. lia.
Qed.
Lemma labels_inv : forall l b, concat_opt (map encode_label l) = Some b -> exists bs, Forall2 label_bytes l bs /\ b = concat bs.
Proof.
  induction l as [|x l IH]; intros b H; cbn [map concat_opt] in H.
  - apply some_inj in H. subst. exists []. split; [constructor|reflexivity].
  - inv_opt. destruct (IH _ E0) as (bs & F & ->). apply label_inv in E. exists (v :: bs). split; [now constructor|reflexivity].
Qed.
Lemma ints_inv : forall l b, concat_opt (map (fun n => encode_label (LInt n)) l) = Some b ->
  Forall (fun n => 0 <= n < 4294967296) l /\ b = flat_map dword l.
Proof.
  induction l as [|x l IH]; intros b H; cbn [map concat_opt] in H.
  - apply some_inj in H. subst. split; [constructor|reflexivity].
  - inv_opt. destruct (IH _ E0) as [F ->]. cbn [encode_label] in E. apply pack_I_dword_inv in E as [R ->].
    split; [now constructor|reflexivity].
Qed.
Lemma cons_inv : forall n l b, concat_opt (mk_bytes [n] :: l) = Some b -> isbyte n /\ exists c, concat_opt l = Some c /\ b = [n] ++ c.
Proof.
  intros n l b H. rewrite concat_cons in H. inv_opt. apply mk_bytes_F in E as [F ->]. inversion F. subst. split; [assumption|eauto].
Qed.
Lemma pairs_inv : forall l b, concat_opt (map (fun e : Z * Z => mk_bytes [fst e; snd e]) l) = Some b ->
  Forall (fun e => isbyte (fst e) /\ isbyte (snd e)) l /\ b = flat_map (fun e => [fst e; snd e]) l.
Proof.
  induction l as [|x l IH]; intros b H; cbn [map concat_opt] in H.
  - apply some_inj in H. subst. split; [constructor|reflexivity].
  - inv_opt. destruct (IH _ E0) as [F ->]. apply mk_bytes_F in E as [R ->]. inversion R as [|? ? R1 R2]. inversion R2. subst.
    split; [constructor; [split; assumption|assumption]|reflexivity].
Qed.
Lemma len_bytes_inv : forall l b, concat_opt [pack_B (len l); mk_bytes l] = Some b -> len l < 256 /\ Forall isbyte l /\ b = [len l] ++ l.
Proof.
  intros l b H. cbn [concat_opt] in H. inv_opt. apply pack_B_inv in E as [R ->]. apply mk_bytes_F in E1 as [F ->].
  split; [lia|]. split; [assumption|]. now rewrite app_nil_r.
Qed.
Lemma len_raw_inv : forall l b, concat_opt [pack_B (len l); Some l] = Some b -> len l < 256 /\ b = [len l] ++ l.
Proof. intros l b H. cbn [concat_opt] in H. inv_opt. apply pack_B_inv in E as [R ->]. split; [lia|]. now rewrite app_nil_r. Qed.
Lemma strings_inv : forall k l b, encode_strings k l = Some b -> forall v, In v l -> isbyte k.
Proof.
  unfold encode_strings. intros k l b H v V. destruct l as [|x l]; [easy|]. cbn [map concat_opt] in H. inv_opt. apply mk_bytes_F in E1 as [F _].
  now inversion F.
Qed.
Lemma multi_inv : forall l b, encode_multi l = Some b -> forall k m v, In (k, m) l -> In v (strings_of m) -> isbyte k.
Proof.
  unfold encode_multi. intros l b H. apply bind_some in H as (c & H & _). revert c H.
  induction l as [|[k m] l IH]; intros c H k' m' v X V; [easy|]. cbn [map concat_opt] in H. inv_opt. destruct X as [X|X].
  - apply pair_inj in X as [-> ->]. cbn [fst snd] in E. exact (strings_inv _ _ _ E v V).
  - exact (IH _ E0 k' m' v X V).
Qed.
Lemma table_inv : forall x b, encode_table x = Some b -> length x = 32%nat.
Proof. intros x b H. unfold encode_table in H. inv_opt. unfold len in C. lia. Qed.
Lemma tables_inv : forall t b, concat_opt (map encode_table t) = Some b -> forall x, In x t -> length x = 32%nat.
Proof.
  induction t as [|y t IH]; intros b H x X; [easy|]. cbn [map concat_opt] in H. inv_opt. destruct X as [->|X]; [exact (table_inv _ _ E)|eauto].
Qed.
Lemma tile_spec : forall t, tile_init t = true -> exists b, tile_bytes t b.
Proof.
  intros [x y id|x y id|x y] H; unfold tile_init, byte_ofs in H; eexists; constructor; unfold isbyte; lia.
Qed.
Lemma tiles_spec : forall l, forallb tile_init l = true -> exists bs, Forall2 tile_bytes l bs.
Proof.
  induction l as [|t l IH]; intros H; cbn [forallb] in H; [exists []; constructor|]. apply andb_prop in H as [H1 H2].
  destruct (IH H2) as [bs F]. destruct (tile_spec t H1) as [b B]. exists (b :: bs). now constructor.
Qed.
Lemma layout_spec : forall l, layout_init l = true -> (forall y r, l <> ICheck (-2) y :: r) -> exists b, layout_bytes l b.
Proof.
  intros l H N. unfold layout_init in H. apply andb_prop in H as [H1 H2]. destruct (tiles_spec l H1) as [bs F].
  exists (concat bs ++ [0; 128]). exists bs. split; [assumption|]. split; [reflexivity|].
  destruct F as [|t b l bs T F]; [cbn; lia|]. cbn [concat]. destruct T as [x y id X Y M I|x y id X Y M I|x y X Y M]; cbn [app hd]; cbn [tile_x] in H2; [lia|lia|].
  intro E. apply (N y l). f_equal. f_equal. lia.
Qed.
Lemma layouts_spec : forall l, (forall x, In x l -> layout_init x = true /\ forall y r, x <> ICheck (-2) y :: r) -> exists bs, Forall2 layout_bytes l bs.
Proof.
  induction l as [|x l IH]; intros H; [exists []; constructor|]. destruct IH as [bs F]; [intros y Y; apply H; now right|].
  destruct (H x (or_introl eq_refl)) as [H1 H2]. destruct (layout_spec x H1 H2) as [b B]. exists (b :: bs). now constructor.
Qed.

Lemma bool_bind : forall {A} (c : bool) (x : option A) b, (do! c; x) = Some b -> c = true /\ x = Some b.
Proof. intros A [|] x b H; [auto|discriminate]. Qed.
Lemma stations_inv : forall l b, (forall o, In o l -> exists g ps gb pbs, o = Some (mkSL g ps) /\ ground_bytes g gb /\ Forall2 parent_bytes ps pbs) ->
  concat_opt (map (fun o => do s <- o; encode_slayout s) l) = Some b -> exists bs, Forall2 slayout_bytes l bs /\ b = concat bs.
Proof.
  induction l as [|o l IH]; intros b P H; cbn [map concat_opt] in H.
  - apply some_inj in H. subst. exists []. split; [constructor|reflexivity].
  - apply bind_some in H as (x & E & H). apply bind_some in H as (y & E0 & H). apply some_inj in H. subst b.
    destruct (IH y) as (bs & F & ->); [intros o' X; apply P; now right|assumption|].
    destruct (P o (or_introl eq_refl)) as (g & ps & gb & pbs & -> & G & Q). cbn [bind] in E.
    assert (L : len ps < 64) by (unfold encode_slayout in E; apply bool_bind in E as [C _]; cbn [sl_parents] in C; lia).
    pose proof (sb g gb ps pbs G Q L) as S1. pose proof (slayout_enc _ _ S1) as S2. cbn [bind] in S2. rewrite E in S2. apply some_inj in S2. subst x.
    eexists (_ :: bs). split; [constructor; [exact S1|assumption]|reflexivity].
Qed.

Lemma accepted_codes : forall f v b, plain f v -> encode_value f v = Some b -> exists w, codes f v w b.
Proof.
  intros f v b P H. destruct P as [f v F|v F|d V Y|d V|n|x y X Y|n|l N K|id t R|l L|l L].
  - cbn in F. repeat match type of F with _ \/ _ => destruct F as [<-|F] end; [..|easy]; cbn [encode_value] in H.
    + destruct v; try discriminate. apply pack_B_inv in H as [R ->]. eexists. now constructor.
    + destruct v; try discriminate. apply pack_b_inv in H as [R ->]. eexists. constructor. lia.
    + destruct v; try discriminate. apply pack_H_word_inv in H as [R ->]. eexists. now constructor.
    + destruct v; try discriminate. apply pack_I_dword_inv in H as [R ->]. eexists. now constructor.
    + destruct v; try discriminate; cbn [encode_label] in H.
      * apply pack_I_dword_inv in H as [R ->]. eexists. now constructor.
      * inv_opt. eexists. constructor. unfold len in C. lia.
    + destruct v; try discriminate. cbn [concat_opt] in H. inv_opt. apply pack_H_word_inv in E1 as [R ->]. apply pack_B_inv in E as [_ ->].
      rewrite app_nil_r. eexists. now constructor.
    + destruct v; try discriminate.
      * apply len_raw_inv in H as [R ->]. eexists. now constructor.
      * apply len_bytes_inv in H as (R & F & ->). eexists. now constructor.
    + destruct v; try discriminate; inv_opt.
      * apply ints_inv in H as [F ->]. eexists. apply c_2L_int; auto. lia.
      * apply ints_inv in H as [F ->]. eexists. apply c_2L_int; auto. lia.
      * apply ints_inv in H as [F ->]. eexists. apply c_2L_int; auto. lia.
      * apply labels_inv in H as (bs & F & ->). eexists. apply c_2L; [lia|assumption].
    + destruct v; try discriminate; apply cons_inv in H as (R & c & H & ->); unfold isbyte in R.
      * apply ints_inv in H as [F ->]. eexists. apply c_nL_int; auto. lia.
      * apply ints_inv in H as [F ->]. eexists. apply c_nL_int; auto. lia.
      * apply ints_inv in H as [F ->]. eexists. apply c_nL_int; auto. lia.
      * apply labels_inv in H as (bs & F & ->). eexists. apply c_nL; [lia|assumption].
    + destruct v; try discriminate. apply pack_B_inv in H as [R ->]. eexists. now constructor.
    + destruct v; try discriminate. apply cons_inv in H as (R & c & H & ->). unfold isbyte in R. apply pairs_inv in H as [F ->].
      eexists. constructor; [lia|assumption].
    + unfold encode_id in H. apply bind_some in H as (n & E & H).
      assert (V : v = VInt n \/ v = VObj n) by (destruct v; try discriminate; apply some_inj in E; subst; auto).
      unfold encode_ext in H. destruct (n <? 255) eqn:C.
      * apply pack_B_inv in H as [R ->]. eexists. apply (c_id_short v n V). lia.
      * cbn [concat_opt] in H. inv_opt. apply pack_H_word_inv in E2 as [R ->]. apply pack_B_inv in E0 as [_ ->].
        rewrite app_nil_r. eexists. apply (c_id_long v n V). lia.
    + unfold encode_id in H. apply bind_some in H as (n & E & H).
      assert (V : v = VInt n \/ v = VObj n) by (destruct v; try discriminate; apply some_inj in E; subst; auto).
      apply pack_H_word_inv in H as [R ->]. eexists. now apply (c_id v n V).
  - cbn [encode_value] in H. destruct v; try discriminate.
    + apply len_raw_inv in H as [R ->]. eexists. constructor; [assumption|]. now apply F.
    + apply len_bytes_inv in H as (R & B & ->). eexists. apply c_bytes; auto.
    + apply len_bytes_inv in H as (R & B & ->). eexists. apply c_bytes; auto.
  - cbn [encode_value dateprop_encode] in H. pose proof V as V'. apply valid_iff in V'. pose proof (date_to_days_eq d V' ltac:(lia)) as T.
    apply pack_I_dword_inv in H as [R ->]. eexists. now apply (c_date d).
  - cbn [encode_value dateprop_encode] in H. apply bind_some in H as (n & T & H). apply pack_I_dword_inv in H as [R ->].
    destruct (Z_le_gt_dec 1 (d_year d)) as [Y1|Y1]; [destruct (Z_le_gt_dec (d_year d) 9999) as [Y2|Y2]|].
    + eexists. now apply (c_date_own d).
    + eexists. apply (c_date_far d); try assumption; lia.
    + eexists. apply (c_date_far d); try assumption; [|lia]. destruct V; lia.
  - cbn [encode_value] in H. destruct (c03_int n b [] H) as (v & Rd & _ & M). cbn [dateprop_encode] in H.
    apply pack_I_dword_inv in H as [R ->]. destruct v as [d|d|m]; [|easy|].
    + destruct M as (V & Y & T). eexists. now apply (c_date_days_of d).
    + destruct M as [-> M]. eexists. apply c_date_days. lia.
  - cbn [encode_value] in H.
    pose proof (codes_enc _ _ _ _ (c_size x y X Y)) as E. cbn [encode_value] in E. rewrite H in E. apply some_inj in E. subst. eexists. now constructor.
  - cbn [encode_value] in H. apply mk_bytes_F in H as [F ->]. inversion F as [|? ? I _]. subst. unfold isbyte in I.
    replace n with (16 * (n / 16) + n mod 16) by lia. eexists. constructor; lia.
  - cbn [encode_value] in H. assert (M : multi_ok l).
    { split; [assumption|]. intros k m v X V. destruct (K k m v X V) as [K0 Z0]. split; [|assumption].
      pose proof (multi_inv l b H k m v X V) as B. unfold isbyte in B. lia. }
    rewrite multi_enc in H by assumption. apply some_inj in H. subst. eexists. now constructor.
  - cbn [encode_value] in H. rewrite concat_cons in H. inv_opt. apply mk_bytes_F in E as [F ->]. inversion F as [|? ? I F2]. inversion F2 as [|? ? I2 _]. subst.
    assert (T : Forall (fun x => length x = 32%nat /\ Forall ref_ok x) t).
    { apply Forall_forall. intros x X. split; [exact (tables_inv _ _ E0 x X)|]. rewrite Forall_forall in R. now apply R. }
    rewrite tables_enc in E0 by assumption. apply some_inj in E0. subst. eexists. constructor; [assumption|unfold isbyte in *; lia|assumption].
  - cbn [encode_value] in H. destruct (layouts_spec l L) as [bs F]. unfold encode_industry in H.
    pose proof (map_F2 layout_bytes _ layout_enc l bs F) as X.
    match type of H with bind ?e _ = _ => replace e with (Some (concat bs)) in H by (symmetry; exact X) end. cbn [bind concat_opt] in H.
    inv_opt. repeat match goal with E : pack_B _ = Some _ |- _ => apply pack_B_inv in E as [? ->] | E : pack_I _ = Some _ |- _ => apply pack_I_dword_inv in E as [? ->] end.
    rewrite ?app_nil_r. eexists. constructor; [lia|assumption|lia].
  - cbn [encode_value] in H. unfold encode_station in H. apply bool_bind in H as [C H]. rewrite !concat_cons in H.
    apply bind_some in H as (h & Hh & H). apply bind_some in H as (t & Ht & H). apply bind_some in Ht as (h2 & Hh2 & Ht).
    apply bind_some in Ht as (t2 & Ht2 & Ht). apply some_inj in Ht. apply some_inj in H. subst.
    destruct (stations_inv l _ L Ht2) as (bs & F & ->). apply pack_B_inv in Hh as [_ ->]. apply pack_H_word_inv in Hh2 as [R ->].
    eexists. apply c_station; [lia|assumption].
Qed.

(** ** Normal forms *)
Lemma labels_norm : forall l bs, Forall2 label_bytes l bs -> Forall2 label_bytes (map LBytes bs) bs.
Proof. intros l bs F. induction F as [|x b l bs X _ IH]; cbn [map]; constructor; [|assumption]. constructor. exact (label_len _ _ X). Qed.
Lemma dword_len : forall n, length (dword n) = 4%nat.
Proof. reflexivity. Qed.
Lemma multi_norm_strings : forall e, (match strings_of (snd e) with [] => [] | [v] => [(fst e, MOne v)] | vs => [(fst e, MMany vs)] end) = norm1 (fst e) (strings_of (snd e)).
Proof. intros [k m]. cbn [fst snd]. destruct (strings_of m) as [|a [|b r]]; reflexivity. Qed.
Lemma multi_normal_flat : forall l, multi_normal l = flat_map (fun e => norm1 (fst e) (strings_of (snd e))) l.
Proof. intros l. unfold multi_normal. induction l as [|e l IH]; cbn [flat_map]; [reflexivity|]. now rewrite multi_norm_strings, IH. Qed.
Lemma multi_part_normal : forall l, multi_part (multi_normal l) = multi_part l.
Proof.
  intros l. rewrite multi_normal_flat. unfold multi_part. induction l as [|[k m] l IH]; cbn [flat_map fst snd]; [reflexivity|].
  rewrite flat_map_app, IH. f_equal. destruct (strings_of m) as [|a [|b r]]; cbn [norm1 flat_map fst snd strings_of app]; [reflexivity| |];
    now rewrite app_nil_r.
Qed.
Lemma multi_normal_idem : forall l, multi_normal (multi_normal l) = multi_normal l.
Proof.
  intros l. rewrite (multi_normal_flat l). rewrite multi_normal_flat. induction l as [|[k m] l IH]; cbn [flat_map fst snd]; [reflexivity|].
  rewrite flat_map_app, IH. f_equal. destruct (strings_of m) as [|a [|b r]]; reflexivity.
Qed.
Lemma multi_normal_In : forall l k m, In (k, m) (multi_normal l) -> exists m', In (k, m') l /\ strings_of m = strings_of m'.
Proof.
  intros l k m H. rewrite multi_normal_flat in H. apply in_flat_map in H as ([k' m'] & X & Y). cbn [fst snd] in Y. exists m'.
  destruct (strings_of m') as [|a [|b r]] eqn:E; cbn [norm1] in Y; [easy| |]; (destruct Y as [Y|[]]; apply pair_inj in Y as [<- <-]; split; [assumption|reflexivity]).
Qed.
Lemma multi_normal_ok : forall l, multi_ok l -> multi_ok (multi_normal l).
Proof.
  intros l [N H]. split.
  - clear H. rewrite multi_normal_flat. induction l as [|[k m] l IH]; cbn [flat_map map]; [constructor|]. cbn [map fst] in N. inversion N as [|? ? N1 N2]. subst.
    rewrite map_app. cbn [fst snd].
    assert (S1 : forall x, In x (map fst (flat_map (fun e => norm1 (fst e) (strings_of (snd e))) l)) -> In x (map fst l)).
    { intros x X. apply in_map_iff in X as ([k' m'] & <- & Y). rewrite <- multi_normal_flat in Y. apply multi_normal_In in Y as (m'' & Y & _).
      apply in_map_iff. exists (k', m''). split; [reflexivity|assumption]. }
    destruct (strings_of m) as [|a [|b r]]; cbn [norm1 map app fst]; [now apply IH| |]; (constructor; [intro X; apply N1; now apply S1|now apply IH]).
  - intros k m v X V. destruct (multi_normal_In l k m X) as (m' & Y & E). rewrite E in V. exact (H k m' v Y V).
Qed.
Lemma codes_normal : forall f v w b, codes f v w b -> codes f w w b.
Proof.
  intros f v w b H. destruct H; try (constructor; assumption).
  - constructor. apply dword_len.
  - pose proof (labels_norm l bs H0) as X. apply F2_len in H0.
    pose proof (c_2L (map LBytes bs) true bs) as Y. apply Y; [|assumption]. unfold len in *. rewrite map_length. lia.
  - pose proof (labels_norm l bs H0) as X. apply F2_len in H0.
    pose proof (c_nL (map LBytes bs) false bs) as Y. replace (len l) with (len (map LBytes bs)) by (unfold len; rewrite map_length; lia).
    apply Y; [|assumption]. unfold len in *. rewrite map_length. lia.
  - pose proof (labels_norm _ _ (ints_F2 l H1)) as X. pose proof (c_2L (map LBytes (map dword l)) true (map dword l)) as Y.
    rewrite map_map in *. rewrite flat_map_dword. apply Y; [|assumption]. unfold len in *. rewrite map_length. lia.
  - pose proof (labels_norm _ _ (ints_F2 l H1)) as X. pose proof (c_nL (map LBytes (map dword l)) false (map dword l)) as Y.
    rewrite map_map in *. rewrite flat_map_dword.
    replace (len l) with (len (map (fun x => LBytes (dword x)) l)) by (unfold len; rewrite map_length; lia).
    apply Y; [|assumption]. unfold len in *. rewrite map_length. lia.
  - constructor. destruct (date_far d n) as [A B]; try assumption. lia.
  - now constructor; [left|].
  - now constructor; [left|].
  - now constructor; [left|].
  - apply c_bytes; auto.
  - apply c_bytes; auto.
  - replace (multi_bytes l) with (multi_bytes (multi_normal l)) by (unfold multi_bytes; fold (multi_part (multi_normal l)); fold (multi_part l); now rewrite multi_part_normal).
    rewrite <- (multi_normal_idem l) at 2. constructor. now apply multi_normal_ok.
Qed.

(** ** Records *)
Definition converse_check (x : Z * list (Z * (string * fmt))) : bool :=
  forallb (fun e : string * (Z * fmt) => let '(n, (c, f)) := e in
    existsb (fun y => let '(c', (n', f')) := y in (c =? c') && String.eqb n n' && fmt_eqb f f') (snd x) &&
    forallb (fun y => let '(c', (n', f')) := y in negb (String.eqb n n') || (c' <=? c)) (snd x)) (prop_dict (snd x)).
Lemma converse_checked : forallb converse_check ACTION0_PROPS = true.
Proof. reflexivity. Qed.
Lemma dict_get_In : forall {K V} (eqb : K -> K -> bool), (forall a b, eqb a b = true <-> a = b) ->
  forall (l : list (K * V)) k v, dict_get eqb l k = Some v -> In (k, v) l.
Proof.
  intros K V eqb E l k v. induction l as [|[k' v'] l IH]; cbn [dict_get]; intro H; [discriminate|].
  destruct (eqb k k') eqn:X; [apply E in X; apply some_inj in H; subst; now left|right; auto].
Qed.
Lemma by_name_has : forall ft name c f, by_name ft name = Some (c, f) -> has_prop ft c name f.
Proof.
  intros ft name c f H. unfold by_name in H. apply bind_some in H as (t & T & H).
  apply (dict_get_In Z.eqb Z.eqb_eq) in T. apply (dict_get_In String.eqb String.eqb_eq) in H.
  pose proof converse_checked as C. rewrite forallb_forall in C. specialize (C _ T). unfold converse_check in C. cbn [snd] in C.
  rewrite forallb_forall in C. specialize (C _ H). cbv beta iota in C. apply andb_prop in C as [C1 C2].
  exists t. split; [assumption|]. apply existsb_exists in C1 as ([c' [n' f']] & I & X). apply andb_prop in X as [X X3]. apply andb_prop in X as [X1 X2].
  apply String.eqb_eq in X2. apply fmt_eqb_eq in X3. assert (c = c') by lia. subst. split; [assumption|].
  intros c0 g Y. rewrite forallb_forall in C2. specialize (C2 _ Y). cbv beta iota in C2. rewrite (proj2 (String.eqb_eq n' n') eq_refl) in C2.
  cbn [negb orb] in C2. lia.
Qed.
Lemma values_inv : forall f n vs b, encode_values n f vs = Some b -> (forall v, In v vs -> plain f v) ->
  (n <= length vs)%nat /\ exists ws, values_code f (firstn n vs) ws b.
Proof.
  intros f n. induction n as [|n IH]; intros vs b H P; cbn [encode_values] in H.
  - apply some_inj in H. subst. split; [lia|]. exists []. constructor.
  - destruct vs as [|v vs]; [discriminate|]. inv_opt. destruct (IH _ _ E0) as [L [ws W]]; [intros x X; apply P; now right|].
    destruct (accepted_codes f v v0 (P v (or_introl eq_refl)) E) as [w C]. cbn [length firstn]. split; [lia|]. exists (w :: ws). now constructor.
Qed.
Lemma props_inv : forall ft count ps b, 0 <= count -> concat_opt (map (encode_prop ft count) ps) = Some b ->
  (forall name vs c f v, In (name, vs) ps -> has_prop ft c name f -> In v vs -> plain f v) -> exists qs, props_code ft count ps qs b.
Proof.
  intros ft count ps. induction ps as [|[name vs] ps IH]; intros b K H P; cbn [map concat_opt] in H.
  - apply some_inj in H. subst. exists []. constructor.
  - inv_opt. destruct (IH _ K E0) as [qs Q]; [intros n' vs' c f w X; apply (P n' vs' c f w); now right|].
    unfold encode_prop in E. apply bind_some in E as ([c f] & N & E). cbn [fst snd] in *. inv_opt.
    match goal with X : mk_bytes _ = Some _ |- _ => apply mk_bytes_inv in X as [_ ->] end.
    apply by_name_has in N. match goal with X : encode_values _ _ _ = Some _ |- _ =>
      destruct (values_inv f _ vs _ X) as [L [ws W]]; [intros w Y; apply (P name vs c f w (or_introl eq_refl) N Y)|] end.
    exists ((name, ws) :: qs). cbn [app]. apply (pc_cons ft count c name f); try assumption. unfold len. lia.
Qed.
Lemma define_accepted : forall a b, define_init a = Some a -> define_data a = Some b -> NoDup (map fst (df_props a)) ->
  (forall name vs c f v, In (name, vs) (df_props a) -> has_prop (df_feature a) c name f -> In v vs -> plain f v) ->
  exists c, define_codes a c b.
Proof.
  intros [ft first count ps] b I H N P. unfold define_init in I. cbn [df_feature df_first df_count df_props] in *.
  apply bind_some in I as (t & T & _). apply (dict_get_In Z.eqb Z.eqb_eq) in T.
  unfold define_data in H. cbn [df_feature df_first df_count df_props] in H. cbn [concat_opt] in H. inv_opt.
  repeat match goal with E : pack_B _ = Some _ |- _ => apply pack_B_inv in E as [? ->] end.
  match goal with E : pack_H _ = Some _ |- _ => apply pack_H_word_inv in E as [? ->] end.
  match goal with E : concat_opt _ = Some _ |- _ => destruct (props_inv ft count ps _ ltac:(lia) E P) as [qs Q] end.
  exists (mkDef ft first count qs). rewrite app_nil_r. cbn [app].
  apply (dc ft first count ps qs); try assumption; try lia. exists t. assumption.
Qed.
Lemma init_unknown : forall a name vs, In (name, vs) (df_props a) -> (forall c f, ~ has_prop (df_feature a) c name f) -> define_init a = None.
Proof.
  intros a name vs X U. unfold define_init. destruct (dict_get Z.eqb ACTION0_PROPS (df_feature a)) as [t|] eqn:T; [|reflexivity]. cbn [bind].
  replace (forallb _ (df_props a)) with false; [reflexivity|]. symmetry. apply not_true_is_false. intro F. rewrite forallb_forall in F.
  specialize (F _ X). cbn [fst] in F. destruct (dict_get String.eqb (prop_dict t) name) as [[c f]|] eqn:E; [|discriminate].
  apply (U c f). apply by_name_has. unfold by_name. rewrite T. exact E.
Qed.
