From Coq Require Import ZArith List Bool Lia ZifyBool.
From Verif Require Import Base BaseFacts CommonModel CommonProofs RecordsModel RecordsProofs RecordsProofs2
  Action14Model SpecAction14.
Import ListNotations.
Open Scope Z_scope.

Lemma bytes_eqb_eq : forall a b, bytes_eqb a b = true <-> a = b.
Proof.
  induction a as [|x a IH]; intros [|y b]; cbn [bytes_eqb]; split; intro H; try discriminate; try reflexivity.
  - apply andb_prop in H as [H1 H2]. apply Z.eqb_eq in H1. apply IH in H2. congruence.
  - injection H as -> ->. rewrite Z.eqb_refl. now apply IH.
Qed.
Lemma bytes_eqb_refl : forall a, bytes_eqb a a = true.
Proof. intro; now apply bytes_eqb_eq. Qed.

Lemma dict_get_fresh : forall (l : ddict) k, ~ In k (map fst l) -> dict_get bytes_eqb l k = None.
Proof.
  induction l as [|[k' v] l IH]; intros k H; cbn [dict_get]; [reflexivity|].
  destruct (bytes_eqb k k') eqn:E; [apply bytes_eqb_eq in E; subst; exfalso; apply H; now left|].
  apply IH. intro; apply H; now right.
Qed.
Lemma dict_get_last : forall (l : ddict) k v, ~ In k (map fst l) -> dict_get bytes_eqb (l ++ [(k, v)]) k = Some v.
Proof.
  induction l as [|[k' v'] l IH]; intros k v H; cbn [app dict_get].
  - now rewrite bytes_eqb_refl.
  - destruct (bytes_eqb k k') eqn:E; [apply bytes_eqb_eq in E; subst; exfalso; apply H; now left|].
    apply IH. intro; apply H; now right.
Qed.
Lemma dict_set_last : forall (l : ddict) k v w, ~ In k (map fst l) ->
  dict_set bytes_eqb (l ++ [(k, v)]) k w = l ++ [(k, w)].
Proof.
  induction l as [|[k' v'] l IH]; intros k v w H; cbn [app dict_set].
  - now rewrite bytes_eqb_refl.
  - destruct (bytes_eqb k k') eqn:E; [apply bytes_eqb_eq in E; subst; exfalso; apply H; now left|].
    f_equal. apply IH. intro; apply H; now right.
Qed.

Fixpoint append_all (res : ddict) (k : bytes) (items : list ditem) : option ddict :=
  match items with
  | [] => Some res
  | i :: r => do res <- dict_append res k i; append_all res k r
  end.

Lemma append_all_more : forall items (l : ddict) k acc, ~ In k (map fst l) ->
  append_all (l ++ [(k, DList acc)]) k items = Some (l ++ [(k, DList (acc ++ items))]).
Proof.
  induction items as [|i items IH]; intros l k acc H; cbn [append_all].
  - now rewrite app_nil_r.
  - unfold dict_append. rewrite dict_get_last by assumption. cbn [bind].
    rewrite dict_set_last by assumption. cbn [bind]. rewrite IH by assumption.
    now rewrite <- app_assoc.
Qed.
Lemma append_all_new : forall i items (l : ddict) k, ~ In k (map fst l) ->
  append_all l k (i :: items) = Some (l ++ [(k, DList (i :: items))]).
Proof.
  intros i items l k H. cbn [append_all]. unfold dict_append.
  rewrite dict_get_fresh by assumption. cbn [bind].
  rewrite (dict_set_fresh _ bytes_eqb_eq) by assumption.
  now rewrite append_all_more.
Qed.
Lemma append_all_app : forall a b res k,
  append_all res k (a ++ b) = do r <- append_all res k a; append_all r k b.
Proof.
  induction a as [|i a IH]; intros; cbn [app append_all bind]; [reflexivity|].
  destruct (dict_append res k i); cbn [bind]; [apply IH|reflexivity].
Qed.

Lemma slice4 : forall k d, length k = 4%nat -> slice 4 (k ++ d) = (k, d).
Proof. intros k d H. rewrite <- H. apply slice_app. Qed.

(** One text or binary chunk. *)
Lemma chunk_text : forall fuel k lang t tail res, length k = 4%nat -> ~ In 0 t ->
  decode_chunks (S fuel) (84 :: k ++ lang :: t ++ 0 :: tail) res
  = do r <- dict_append res k (IText lang t); decode_chunks fuel tail r.
Proof.
  intros. cbn [decode_chunks]. rewrite rd_B_cons. cbn [bind].
  change (84 =? 0) with false. rewrite slice4 by assumption. cbv iota beta.
  change (84 =? 67) with false. change (84 =? 66) with false. change (84 =? 84) with true. cbv iota.
  rewrite rd_B_cons. cbn [bind]. rewrite find0_app by assumption. cbn [bind].
  now rewrite firstn_app_len, skipn_S_app.
Qed.
Lemma chunk_bin : forall fuel k b tail res, length k = 4%nat -> len b < 65536 ->
  decode_chunks (S fuel) (66 :: k ++ (len b mod 256) :: (len b / 256) :: b ++ tail) res
  = do r <- dict_append res k (IBin b); decode_chunks fuel tail r.
Proof.
  intros. cbn [decode_chunks]. rewrite rd_B_cons. cbn [bind].
  change (66 =? 0) with false. rewrite slice4 by assumption. cbv iota beta.
  change (66 =? 67) with false. change (66 =? 66) with true. cbv iota.
  pose proof (len_nonneg b). rewrite rd_H_mod by lia. cbn [bind]. rewrite len_nat, slice_app. reflexivity.
Qed.

Lemma pack_I_le : forall n, 0 <= n < 2 ^ 32 -> pack_I n = Some (le_bytes 4 n).
Proof.
  intros n H. change (2 ^ 32) with 4294967296 in H. rewrite pack_I_ok by lia.
  cbn [le_bytes]. change 255 with (Z.ones 8). rewrite !Z.land_ones, !Z.shiftr_shiftr, !Z.shiftr_div_pow2 by lia.
  change (8 + 8) with 16. change (16 + 8) with 24. change (8 + 16) with 24.
  change (2 ^ 8) with 256. change (2 ^ 16) with 65536. change (2 ^ 24) with 16777216.
  do 5 f_equal. rewrite Z.mod_small; lia.
Qed.

Lemma key_enc : forall k, key_ok k -> enc_key k = Some (tag_of k) /\ length (tag_of k) = 4%nat.
Proof.
  intros [b|n] H; cbn [enc_key tag_of key_ok] in *; [auto|]. split; [now apply pack_I_le|]. apply le_bytes_len.
Qed.

Definition goL (k : option pkey) := fix go (l : list pval) : option bytes :=
  match l with
  | [] => Some []
  | x :: r => do a <- enc_rec k x; do b <- go r; Some (a ++ b)
  end.
Definition goD := fix go (l : list (pkey * pval)) : option bytes :=
  match l with
  | [] => Some []
  | (ck, cv) :: r => do a <- enc_rec (Some ck) cv; do b <- go r; Some (a ++ b)
  end.

Lemma enc_rec_list : forall k kb l, enc_key k = Some kb -> enc_rec (Some k) (PList l) = goL (Some (KRaw kb)) l.
Proof. intros. cbn [enc_rec]. rewrite H. cbn [bind option_map]. reflexivity. Qed.
Lemma enc_rec_dict : forall k kb l, enc_key k = Some kb ->
  enc_rec (Some k) (PDict l) = do inner <- goD l; Some ((67 :: kb) ++ inner ++ [0]).
Proof. intros. cbn [enc_rec]. rewrite H. cbn [bind]. reflexivity. Qed.

Lemma len_lt : forall (b : bytes), (length b < Z.to_nat 65536)%nat -> len b < 65536.
Proof. intros. unfold len. lia. Qed.

(** A leaf value: its bytes are read as its items, using at most one round per byte. *)
Definition leaf_dec (kb b : bytes) (items : list ditem) : Prop :=
  exists n, (n <= length b)%nat /\ forall fuel tail res,
    decode_chunks (n + fuel) (b ++ tail) res
    = do r <- append_all res kb items; decode_chunks fuel tail r.

Lemma leaf_dec_app : forall kb b1 b2 i1 i2, leaf_dec kb b1 i1 -> leaf_dec kb b2 i2 ->
  leaf_dec kb (b1 ++ b2) (i1 ++ i2).
Proof.
  intros kb b1 b2 i1 i2 [n1 [L1 H1]] [n2 [L2 H2]]. exists (n1 + n2)%nat. split; [rewrite app_length; lia|].
  intros. rewrite <- Nat.add_assoc, <- app_assoc, H1, append_all_app.
  destruct (append_all res kb i1); cbn [bind]; [apply H2|reflexivity].
Qed.
Lemma leaf_dec_nil : forall kb, leaf_dec kb [] [].
Proof. intros; exists 0%nat; split; [lia|]. reflexivity. Qed.
Lemma leaf_dec_text : forall kb lang t, length kb = 4%nat -> ~ In 0 t ->
  leaf_dec kb (84 :: kb ++ lang :: t ++ [0]) [IText lang t].
Proof.
  intros kb lang t Hk Ht. exists 1%nat. split; [cbn; lia|]. intros.
  replace ((84 :: kb ++ lang :: t ++ [0]) ++ tail) with (84 :: kb ++ lang :: t ++ 0 :: tail)
    by (cbn [app]; rewrite <- !app_assoc; cbn [app]; now rewrite <- app_assoc).
  change (1 + fuel)%nat with (S fuel). rewrite chunk_text by assumption.
  cbn [append_all]. now destruct (dict_append _ _ _).
Qed.
Lemma leaf_dec_bin : forall kb b, length kb = 4%nat -> len b < 65536 ->
  leaf_dec kb (66 :: kb ++ (len b mod 256) :: (len b / 256) :: b) [IBin b].
Proof.
  intros kb b Hk Hb. exists 1%nat. split; [cbn; lia|]. intros.
  replace ((66 :: kb ++ len b mod 256 :: len b / 256 :: b) ++ tail)
    with (66 :: kb ++ (len b mod 256) :: (len b / 256) :: b ++ tail)
    by (cbn [app]; rewrite <- !app_assoc; reflexivity).
  change (1 + fuel)%nat with (S fuel). rewrite chunk_bin by assumption.
  cbn [append_all]. now destruct (dict_append _ _ _).
Qed.

Lemma enc_text_ok : forall kb lang t, 0 <= lang < 256 ->
  enc_text kb lang t = Some (84 :: kb ++ lang :: t ++ [0]).
Proof.
  intros. unfold enc_text, mk_bytes. cbn [concat_opt bytesb forallb]. unfold byteb.
  replace ((0 <=? lang) && (lang <? 256) && true) with true by lia. cbn [bind app].
  reflexivity.
Qed.

Lemma leaf_enc : forall v items, leaf_items v items -> forall k kb, enc_key k = Some kb -> length kb = 4%nat ->
  exists b, enc_rec (Some k) v = Some b /\ leaf_dec kb b items.
Proof.
  induction 1 as [lang t [Hl Ht]|t Ht|n Hn|b Hb|ps Hps| |x xs i is Hx IHx Hxs IHxs]; intros k kb Ek Lk.
  - cbn [enc_rec]. rewrite Ek. cbn [bind]. rewrite enc_text_ok by assumption.
    eexists; split; [reflexivity|]. now apply leaf_dec_text.
  - cbn [enc_rec]. rewrite Ek. cbn [bind]. eexists; split; [reflexivity|]. cbn [app].
    now apply leaf_dec_text.
  - cbn [enc_rec]. rewrite Ek. cbn [bind]. rewrite pack_I_le by assumption. cbn [concat_opt bind].
    eexists; split; [reflexivity|]. rewrite app_nil_r. cbn [app].
    apply (leaf_dec_bin kb (le_bytes 4 n)); [assumption|]. cbn. lia.
  - cbn [enc_rec]. rewrite Ek. cbn [bind]. apply len_lt in Hb. pose proof (len_nonneg b).
    rewrite pack_H_ok by lia. cbn [concat_opt bind].
    eexists; split; [reflexivity|]. rewrite app_nil_r. cbn [app]. now apply leaf_dec_bin.
  - cbn [enc_rec]. rewrite Ek. cbn [bind].
    induction Hps as [|[lang t] ps [Hl Ht] Hps IH]; cbn [map].
    + eexists; split; [reflexivity|]. apply leaf_dec_nil.
    + destruct IH as [b [Hb Db]]. rewrite concat_cons. rewrite Hb. cbn [fst snd] in *.
      rewrite enc_text_ok by assumption. cbn [bind]. eexists; split; [reflexivity|].
      apply (leaf_dec_app kb _ _ [_]); [|assumption]. now apply leaf_dec_text.
  - rewrite (enc_rec_list _ _ _ Ek). eexists; split; [reflexivity|]. apply leaf_dec_nil.
  - rewrite (enc_rec_list _ _ _ Ek). cbn [goL].
    destruct (IHx (KRaw kb) kb eq_refl Lk) as [b1 [E1 D1]].
    destruct (IHxs (KRaw kb) kb eq_refl Lk) as [b2 [E2 D2]].
    rewrite (enc_rec_list (KRaw kb) kb _ eq_refl) in E2. rewrite E1. cbn [bind].
    change ((fix go (l : list pval) : option bytes :=
      match l with
      | [] => Some []
      | x0 :: r => do a <- enc_rec (Some (KRaw kb)) x0; do b <- go r; Some (a ++ b)
      end) xs) with (goL (Some (KRaw kb)) xs).
    rewrite E2. cbn [bind]. eexists; split; [reflexivity|]. now apply leaf_dec_app.
Qed.

Lemma tree_rt : forall l d, tree l d -> exists b, goD l = Some b /\
  forall fuel tail res, (length b < fuel)%nat ->
    (forall k, In k (map fst d) -> ~ In k (map fst res)) ->
    decode_chunks fuel (b ++ 0 :: tail) res = Some (res ++ d, tail).
Proof.
  induction 1 as [|k sub r dsub dr Hk Hsub IHsub Hr IHr Hfresh|k v r i is dr Hk Hleaf Hr IHr Hfresh].
  - exists []. split; [reflexivity|]. intros fuel tail res Hf _.
    destruct fuel; [cbn in Hf; lia|]. cbn. now rewrite app_nil_r.
  - destruct IHsub as [bs [Es Ds]]. destruct IHr as [br [Er Dr]].
    destruct (key_enc k Hk) as [Ek Lk].
    exists (((67 :: tag_of k) ++ bs ++ [0]) ++ br). split.
    + cbn [goD]. rewrite (enc_rec_dict _ _ _ Ek), Es. cbn [bind].
      change ((fix go (l : list (pkey * pval)) : option bytes := _) r) with (goD r).
      rewrite Er. reflexivity.
    + intros fuel tail res Hf Hd. destruct fuel as [|fuel]; [cbn in Hf; lia|].
      rewrite !app_length in Hf. cbn [length] in Hf.
      replace ((((67 :: tag_of k) ++ bs ++ [0]) ++ br) ++ 0 :: tail)
        with (67 :: tag_of k ++ (bs ++ 0 :: br ++ 0 :: tail))
        by (cbn [app]; rewrite <- !app_assoc; cbn [app]; reflexivity).
      cbn [decode_chunks]. rewrite rd_B_cons. cbn [bind].
      change (67 =? 0) with false. rewrite slice4 by assumption. cbv iota beta.
      change (67 =? 67) with true. cbv iota.
      rewrite Ds; [|lia|auto]. cbn [bind app].
      rewrite (dict_set_fresh _ bytes_eqb_eq) by (apply Hd; now left).
      rewrite Dr; [|lia|].
      * now rewrite <- app_assoc.
      * intros k' Hk' Hin. rewrite map_app in Hin. apply in_app_or in Hin as [Hin|[<-|[]]].
        -- apply (Hd k'); [now right|assumption].
        -- now apply Hfresh.
  - destruct IHr as [br [Er Dr]]. destruct (key_enc k Hk) as [Ek Lk].
    destruct (leaf_enc _ _ Hleaf _ _ Ek Lk) as [b [Eb [n [Ln Dn]]]].
    exists (b ++ br). split.
    + cbn [goD]. rewrite Eb. cbn [bind].
      change ((fix go (l : list (pkey * pval)) : option bytes := _) r) with (goD r).
      rewrite Er. reflexivity.
    + intros fuel tail res Hf Hd. rewrite app_length in Hf.
      replace fuel with (n + (fuel - n))%nat by lia.
      rewrite <- app_assoc, Dn.
      rewrite append_all_new by (apply Hd; now left). cbn [bind].
      rewrite Dr; [|lia|].
      * now rewrite <- app_assoc.
      * intros k' Hk' Hin. rewrite map_app in Hin. apply in_app_or in Hin as [Hin|[<-|[]]].
        -- apply (Hd k'); [now right|assumption].
        -- now apply Hfresh.
Qed.

Lemma action14_rt : forall l d, tree l d ->
  exists b, action14_data l = Some (20 :: b) /\ decode_action14 b = Some d.
Proof.
  intros l d T. destruct (tree_rt l d T) as [b [E D]].
  exists (b ++ [0]). split.
  - unfold action14_data. change (enc_rec None (PDict l)) with (do inner <- goD l; Some ([] ++ inner ++ [0])).
    rewrite E. reflexivity.
  - unfold decode_action14. rewrite D; [reflexivity| |auto].
    rewrite app_length. cbn. lia.
Qed.

(** ** Decoded trees can be written again *)
Definition p_item (i : ditem) : pval := match i with IBin b => PBytes b | IText l t => PText l t end.
Fixpoint p_val (v : dval) : pval :=
  match v with
  | DDict l => PDict (map (fun kv => (KRaw (fst kv), p_val (snd kv))) l)
  | DList l => PList (map p_item l)
  end.
Definition p_dict (l : ddict) : list (pkey * pval) := map (fun kv => (KRaw (fst kv), p_val (snd kv))) l.

(** Well-formed decoder results. *)
Definition item_ok (i : ditem) : Prop :=
  match i with IBin b => (length b < Z.to_nat 65536)%nat | IText l t => text_ok l t end.
Inductive dwf : ddict -> Prop :=
| dw_nil : dwf []
| dw_dict k sub r : length k = 4%nat -> dwf sub -> dwf r -> ~ In k (map fst r) -> dwf ((k, DDict sub) :: r)
| dw_leaf k i is r : length k = 4%nat -> Forall item_ok (i :: is) -> dwf r -> ~ In k (map fst r) ->
    dwf ((k, DList (i :: is)) :: r).

Lemma items_leaf : forall l, Forall item_ok l -> leaf_items (PList (map p_item l)) l.
Proof.
  induction 1 as [|i l Hi Hl IH]; [constructor|]. cbn [map].
  apply (li_cons (p_item i) (map p_item l) [i] l); [|assumption].
  destruct i; cbn [p_item item_ok] in *; now constructor.
Qed.

Lemma dwf_tree : forall d, dwf d -> tree (p_dict d) d.
Proof.
  induction 1; cbn [p_dict map fst snd p_val].
  - constructor.
  - apply (tr_dict (KRaw k)); assumption.
  - apply (tr_leaf (KRaw k)); try assumption. now apply (items_leaf (i :: is)).
Qed.

Lemma dwf_split : forall l, dwf l -> NoDup (map fst l) /\ Forall (fun kv => length (fst kv) = 4%nat) l.
Proof. induction 1; cbn [map fst]; split; constructor; try tauto. Qed.

Lemma dwf_insert : forall l k v, dwf l -> dwf [(k, v)] -> dwf (dict_set bytes_eqb l k v).
Proof.
  intros l k v Hl Hv. induction Hl; cbn [dict_set]; [assumption| |].
  - destruct (bytes_eqb k k0) eqn:E.
    + apply bytes_eqb_eq in E. subst k0. inversion Hv; subst; constructor; assumption.
    + constructor; try assumption. intro X.
      assert (forall (l : ddict) k v x, In x (map fst (dict_set bytes_eqb l k v)) -> x = k \/ In x (map fst l)) as KS.
      { clear. induction l as [|[k' v'] l IH]; intros k v x H; cbn [dict_set] in H.
        - destruct H as [<-|[]]; auto.
        - destruct (bytes_eqb k k'); cbn [map fst] in *; [auto|].
          destruct H as [<-|H]; [cbn; auto|]. apply IH in H. cbn. tauto. }
      apply KS in X as [X|X]; [|contradiction]. subst. rewrite bytes_eqb_refl in E. discriminate.
  - destruct (bytes_eqb k k0) eqn:E.
    + apply bytes_eqb_eq in E. subst k0. inversion Hv; subst; constructor; assumption.
    + constructor; try assumption. intro X.
      assert (forall (l : ddict) k v x, In x (map fst (dict_set bytes_eqb l k v)) -> x = k \/ In x (map fst l)) as KS.
      { clear. induction l as [|[k' v'] l IH]; intros k v x H; cbn [dict_set] in H.
        - destruct H as [<-|[]]; auto.
        - destruct (bytes_eqb k k'); cbn [map fst] in *; [auto|].
          destruct H as [<-|H]; [cbn; auto|]. apply IH in H. cbn. tauto. }
      apply KS in X as [X|X]; [|contradiction]. subst. rewrite bytes_eqb_refl in E. discriminate.
Qed.

Lemma dict_get_wf : forall l k x, dwf l -> dict_get bytes_eqb l k = Some (DList x) -> Forall item_ok x.
Proof.
  intros l k x H. induction H; cbn [dict_get]; intro E; [discriminate| |];
    destruct (bytes_eqb k k0); try discriminate; auto. injection E as <-. assumption.
Qed.

Lemma dict_append_wf : forall res k i r, dwf res -> length k = 4%nat -> item_ok i ->
  dict_append res k i = Some r -> dwf r.
Proof.
  intros res k i r H Hk Hi E. unfold dict_append in E.
  destruct (dict_get bytes_eqb res k) as [[sub|l]|] eqn:G; [discriminate| |]; inv_opt; apply dwf_insert; try assumption.
  - apply dict_get_wf in G; [|assumption].
    destruct l as [|j l]; cbn [app]; constructor; auto using dw_nil.
    inversion G; subst. constructor; [assumption|]. apply Forall_app. auto.
  - constructor; auto using dw_nil.
Qed.

Lemma find0_nozero : forall d p, find0 d = Some p -> ~ In 0 (firstn p d).
Proof.
  induction d as [|b d IH]; intros p H; cbn [find0] in H; [discriminate|].
  destruct (b =? 0) eqn:E; [injection H as <-; auto|].
  destruct (find0 d) eqn:F; [|discriminate]. cbn in H. injection H as <-. cbn [firstn].
  intros [X|X]; [lia|]. now apply (IH _ eq_refl).
Qed.

Lemma bytesb_skipn : forall n d, bytesb d = true -> bytesb (skipn n d) = true.
Proof.
  induction n; intros [|b d] H; cbn [skipn]; try assumption. apply IHn. now apply bytesb_cons in H.
Qed.

Lemma decode_chunks_wf : forall fuel d res r tail, bytesb d = true -> dwf res ->
  decode_chunks fuel d res = Some (r, tail) -> dwf r /\ bytesb tail = true.
Proof.
  induction fuel as [|fuel IH]; intros d res r tail Hb Hw H; cbn [decode_chunks] in H; [discriminate|].
  inv_opt. apply (rd_B_range _ _ _ Hb) in E as [Hz Hb0].
  destruct (z =? 0); [inv_opt; auto|].
  unfold slice in H at 1. cbv iota beta in H.
  assert (Hs : bytesb (skipn 4 b) = true) by now apply bytesb_skipn.
  assert (Hlen : skipn 4 b <> [] -> length (firstn 4 b) = 4%nat).
  { intro N. rewrite firstn_length. assert (length (skipn 4 b) <> 0%nat) by (destruct (skipn 4 b); [congruence|cbn; lia]).
    rewrite skipn_length in *. lia. }
  destruct (z =? 67).
  - inv_opt. destruct (IH _ _ _ _ Hs dw_nil E) as [W1 B1].
    apply (IH _ _ _ _ B1) in H; [assumption|]. apply dwf_insert; [assumption|].
    constructor; auto using dw_nil. apply Hlen. intro N. rewrite N in E. destruct fuel; discriminate E.
  - destruct (z =? 66).
    + apply bind_some in H as [[l0 d0] [E H]].
      assert (N : skipn 4 b <> []) by (intro N; rewrite N in E; discriminate E).
      unfold slice in H. cbv iota beta in H. inv_opt.
      destruct (rd_H_range _ _ _ Hs E) as [Hr Hb2].
      apply (IH _ _ _ _ (bytesb_skipn _ _ Hb2)) in H; [assumption|].
      eapply dict_append_wf; [exact Hw|now apply Hlen| |exact E0]. cbn [item_ok].
      rewrite firstn_length. lia.
    + destruct (z =? 84); [|discriminate]. inv_opt.
      assert (N : skipn 4 b <> []) by (intro N; rewrite N in E; discriminate E).
      destruct (rd_B_range _ _ _ Hs E) as [Hr Hb2].
      apply (IH _ _ _ _ (bytesb_skipn (S v) _ Hb2)) in H; [assumption|].
      eapply dict_append_wf; [exact Hw|now apply Hlen| |exact E1]. cbn [item_ok].
      split; [lia|]. now apply find0_nozero.
Qed.

Lemma action14_re : forall d t, bytesb d = true -> decode_action14 d = Some t ->
  exists b, action14_data (p_dict t) = Some (20 :: b) /\ decode_action14 b = Some t.
Proof.
  intros d t Hb H. unfold decode_action14 in H. inv_opt.
  apply action14_rt, dwf_tree. now apply (decode_chunks_wf _ _ _ _ _ Hb dw_nil) in E.
Qed.
