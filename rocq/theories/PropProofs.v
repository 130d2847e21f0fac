(** Proofs for C05 and C06. *)
From Coq Require Import ZArith List Bool Lia ZifyBool String.
From Verif Require Import Base BaseFacts CommonModel SpecCommon CommonProofs CommonProofs2 RecordsModel RecordsProofs RecordsProofs2 EncodableProofs
  Action2Model Action2Proofs PropModel Action0Model SpecContainer ContainerProofs SpecProp.
Import ListNotations.
Open Scope string_scope.
Open Scope list_scope.
Open Scope Z_scope.

Ltac fb := repeat (apply Forall_cons; [first [assumption | unfold isbyte in *; lia]|]); apply Forall_nil.
(** ** Fields *)
Lemma pack_H_word : forall n, 0 <= n <= 65535 -> pack_H n = Some (word n).
Proof. intros n H. rewrite pack_H_ok by lia. unfold word. do 3 f_equal. lia. Qed.
Lemma rd_word : forall n r, 0 <= n <= 65535 -> rd_H (word n ++ r) = Some (n, r).
Proof. intros n r H. apply rd_H_pack. now apply pack_H_word. Qed.
Lemma rd_ext_word : forall n r, 0 <= n <= 65535 -> rd_ext (([255] ++ word n) ++ r) = Some (n, r).
Proof. intros n r H. rewrite <- app_assoc. unfold rd_ext. cbn [app rd_B bind]. cbn [Z.eqb Pos.eqb negb]. now apply (rd_word n r). Qed.
Lemma bytesb_ok : forall l, Forall isbyte l -> mk_bytes l = Some l.
Proof.
  intros l H. apply mk_bytes_ok. unfold bytesb. apply forallb_forall. rewrite Forall_forall in H. intros x X. specialize (H x X).
  unfold isbyte in H. unfold byteb. lia.
Qed.
Lemma concat_some : forall bs, concat_opt (map Some bs) = Some (concat bs).
Proof. induction bs as [|b bs IH]; cbn [map concat_opt concat]; [reflexivity|]. cbn [bind]. now rewrite IH. Qed.
Lemma map_F2 : forall {A} (R : A -> bytes -> Prop) (enc : A -> option bytes), (forall x b, R x b -> enc x = Some b) ->
  forall l bs, Forall2 R l bs -> concat_opt (map enc l) = Some (concat bs).
Proof.
  intros A R enc H l bs F. induction F as [|x b l bs X _ IH]; cbn [map concat_opt concat]; [reflexivity|].
  rewrite (H _ _ X), IH. reflexivity.
Qed.
Lemma rd_F2 : forall {A B} (R : A -> bytes -> Prop) (f : A -> B) (g : bytes -> B) rd,
  (forall x b r, R x b -> rd (b ++ r) = Some (g b, r)) ->
  forall l bs r, Forall2 R l bs -> rd_n rd (length l) (concat bs ++ r) = Some (map g bs, r).
Proof.
  intros A B R f g rd H l bs r F. induction F as [|x b l bs X _ IH]; cbn [length rd_n map concat]; [reflexivity|].
  rewrite <- app_assoc. rewrite (H _ _ _ X). cbn [bind]. rewrite IH. reflexivity.
Qed.
Lemma rd_F2' : forall {A} (R : A -> bytes -> Prop) rd,
  (forall x b r, R x b -> rd (b ++ r) = Some (x, r)) ->
  forall l bs r, Forall2 R l bs -> rd_n rd (length l) (concat bs ++ r) = Some (l, r).
Proof.
  intros A R rd H l bs r F. induction F as [|x b l bs X _ IH]; cbn [length rd_n concat]; [reflexivity|].
  rewrite <- app_assoc. rewrite (H _ _ _ X). cbn [bind]. rewrite IH. reflexivity.
Qed.
Lemma slice_len : forall l r, rd_slice (len l) (l ++ r) = (l, r).
Proof. intros l r. unfold rd_slice. rewrite len_nat. apply slice_app. Qed.
Lemma F2_len : forall {A B} (R : A -> B -> Prop) l m, Forall2 R l m -> length l = length m.
Proof. intros A B R l m F. induction F; cbn; congruence. Qed.

(** ** Labels *)
Lemma label_enc : forall l b, label_bytes l b -> encode_label l = Some b.
Proof.
  intros l b [n H|c H]; cbn [encode_label]; [now apply pack_I_dword_ok|].
  unfold len. rewrite H. reflexivity.
Qed.
Lemma label_len : forall l b, label_bytes l b -> length b = 4%nat.
Proof. intros l b [n H|c H]; [reflexivity|assumption]. Qed.
Lemma label_rd : forall l b r, label_bytes l b -> rd_label (b ++ r) = Some (LBytes b, r).
Proof.
  intros l b r H. apply label_len in H. unfold rd_label, rd_slice. change (Z.to_nat 4) with 4%nat. rewrite <- H, slice_app. reflexivity.
Qed.

Lemma ints_F2 : forall l, Forall (fun n => 0 <= n < 4294967296) l -> Forall2 label_bytes (map LInt l) (map dword l).
Proof. intros l F. induction F as [|n l N _ IH]; cbn [map]; constructor; [now constructor|assumption]. Qed.
Lemma flat_map_dword : forall l, flat_map dword l = concat (map dword l).
Proof. intros l. now rewrite flat_map_concat_map. Qed.

(** ** Sprite references *)
Lemma ref_sum : forall r, ref_ok r -> 0 <= sr_to_grf false r < 4294967296 /\ ref_bytes r = dword (sr_to_grf false r).
Proof.
  intros r [H1 H2]. rewrite to_grf_sum by lia. unfold ref_bytes, word, dword.
  replace (Bool.eqb (sr_is_global r) false) with (negb (sr_is_global r)) by (destruct (sr_is_global r); reflexivity).
  pose proof (b2z_range (sr_always_transparent r)). pose proof (b2z_range (sr_use_recolour r)).
  pose proof (b2z_range (sr_no_transparent r)). pose proof (b2z_range (negb (sr_is_global r))).
  set (a := sr_id r + _ + _). set (c := sr_pal r + _ + _).
  assert (0 <= a < 65536) by (subst a; lia). assert (0 <= c < 65536) by (subst c; lia). clearbody a c.
  split; [lia|]. cbn [app]. repeat (f_equal; [lia|]). f_equal. lia.
Qed.
Lemma ref_enc : forall r, ref_ok r -> pack_I (sr_to_grf false r) = Some (ref_bytes r).
Proof. intros r H. destruct (ref_sum r H) as [R ->]. now apply pack_I_dword_ok. Qed.
Definition rd_ref (d : bytes) : option (sprite_ref * bytes) := do (s, d) <- rd_I d; Some (sr_from_grf false s, d).
Lemma ref_rd_I : forall r d, ref_ok r -> rd_I (ref_bytes r ++ d) = Some (sr_to_grf false r, d).
Proof. intros r d H. destruct (ref_sum r H) as [R ->]. now apply rd_dword. Qed.
Lemma ref_from : forall r, ref_ok r -> sr_from_grf false (sr_to_grf false r) = r.
Proof. intros r [H1 H2]. apply from_to_grf; lia. Qed.
Lemma ref_rd : forall r d, ref_ok r -> rd_ref (ref_bytes r ++ d) = Some (r, d).
Proof. intros r d H. unfold rd_ref. rewrite ref_rd_I by assumption. cbn [bind]. now rewrite ref_from. Qed.

(** ** Multi-dictionaries *)
Definition multi_part (l : list (Z * mval)) : bytes := flat_map (fun e => flat_map (fun v => fst e :: v ++ [0]) (strings_of (snd e))) l.
Lemma strings_enc : forall k l, isbyte k -> encode_strings k l = Some (flat_map (fun v => k :: v ++ [0]) l).
Proof.
  intros k l K. unfold encode_strings. induction l as [|v l IH]; cbn [map concat_opt flat_map]; [reflexivity|].
  rewrite IH. rewrite bytesb_ok by fb. reflexivity.
Qed.
Lemma multi_enc : forall l, multi_ok l -> encode_multi l = Some (multi_bytes l).
Proof.
  intros l [_ H]. unfold encode_multi, multi_bytes. fold (multi_part l).
  assert (E : concat_opt (map (fun e => encode_strings (fst e) (match snd e with MOne v => [v] | MMany vs => vs end)) l) = Some (multi_part l)).
  { induction l as [|[k m] l IH]; cbn [map concat_opt]; [reflexivity|].
    rewrite IH by (intros k' m' v X; apply (H k' m' v); now right). cbn [fst snd].
    assert (X : encode_strings k (strings_of m) = Some (flat_map (fun v => k :: v ++ [0]) (strings_of m))).
    { destruct (strings_of m) as [|v vs] eqn:E; [reflexivity|]. apply strings_enc.
      destruct (H k m v (or_introl eq_refl)) as [K _]; [rewrite E; now left|]. unfold isbyte. lia. }
    unfold strings_of in X at 1. rewrite X. reflexivity. }
  rewrite E. reflexivity.
Qed.
Lemma dict_get_last : forall (res : list (Z * mval)) k m, ~ In k (map fst res) -> dict_get Z.eqb (res ++ [(k, m)]) k = Some m.
Proof.
  induction res as [|[k' m'] res IH]; intros k m H; cbn [app dict_get].
  - now rewrite Z.eqb_refl.
  - destruct (k =? k') eqn:E; [exfalso; apply H; left; cbn; lia|]. apply IH. intro X. apply H. now right.
Qed.
Lemma dict_set_last : forall (res : list (Z * mval)) k m m', ~ In k (map fst res) -> dict_set Z.eqb (res ++ [(k, m)]) k m' = res ++ [(k, m')].
Proof.
  induction res as [|[k0 m0] res IH]; intros k m m' H; cbn [app dict_set].
  - now rewrite Z.eqb_refl.
  - destruct (k =? k0) eqn:E; [exfalso; apply H; left; cbn; lia|]. f_equal. apply IH. intro X. apply H. now right.
Qed.
Lemma dict_get_none : forall (res : list (Z * mval)) k, ~ In k (map fst res) -> dict_get Z.eqb res k = None.
Proof.
  induction res as [|[k' m'] res IH]; intros k H; cbn [dict_get]; [reflexivity|].
  destruct (k =? k') eqn:E; [exfalso; apply H; left; cbn; lia|]. apply IH. intro X. apply H. now right.
Qed.
Definition norm1 (k : Z) (vs : list bytes) : list (Z * mval) :=
  match vs with [] => [] | [v] => [(k, MOne v)] | vs => [(k, MMany vs)] end.
Lemma rd_multi_one : forall fuel res k v d, 1 <= k -> ~ In 0 v ->
  rd_multi (S fuel) res ((k :: v ++ [0]) ++ d) = rd_multi fuel (multi_add res k v) d.
Proof.
  intros fuel res k v d K Z. cbn [app rd_multi rd_B bind]. destruct (k =? 0) eqn:E; [lia|].
  rewrite <- app_assoc. change ([0] ++ d) with (0 :: d). rewrite find0_app by assumption. cbn [bind].
  rewrite firstn_app_len, skipn_S_app. reflexivity.
Qed.
Lemma rd_multi_strings : forall vs done fuel res k d, (forall v, In v vs -> 1 <= k < 256 /\ ~ In 0 v) -> ~ In k (map fst res) ->
  rd_multi (length vs + fuel) (res ++ norm1 k done) (flat_map (fun v => k :: v ++ [0]) vs ++ d) =
  rd_multi fuel (res ++ norm1 k (done ++ vs)) d.
Proof.
  induction vs as [|v vs IH]; intros done fuel res k d H N.
  - cbn [length flat_map app Nat.add]. now rewrite app_nil_r.
  - cbn [length flat_map Nat.add]. rewrite <- app_assoc. destruct (H v (or_introl eq_refl)) as [K Z0].
    rewrite rd_multi_one by (assumption || lia).
    replace (multi_add (res ++ norm1 k done) k v) with (res ++ norm1 k (done ++ [v])).
    + rewrite IH; [|intros w W; apply H; now right|assumption]. now rewrite <- app_assoc.
    + unfold multi_add. destruct done as [|a [|b done]]; cbn [norm1 app].
      * rewrite app_nil_r, dict_get_none by assumption. rewrite (dict_set_fresh Z.eqb Z.eqb_eq) by assumption. reflexivity.
      * rewrite dict_get_last by assumption. now rewrite dict_set_last.
      * rewrite dict_get_last by assumption. now rewrite dict_set_last.
Qed.
Lemma norm1_keys : forall k vs x, In x (map fst (norm1 k vs)) -> x = k.
Proof. intros k [|a [|b vs]] x; cbn; intuition. Qed.
Lemma rd_multi_all : forall l fuel res d, NoDup (map fst l) -> (forall k m v, In (k, m) l -> In v (strings_of m) -> 1 <= k < 256 /\ ~ In 0 v) ->
  (forall k, In k (map fst l) -> ~ In k (map fst res)) -> (length (multi_part l) < fuel)%nat ->
  rd_multi fuel res (multi_part l ++ [0] ++ d) = Some (res ++ multi_normal l, d).
Proof.
  induction l as [|[k m] l IH]; intros fuel res d N H D F.
  - destruct fuel; [cbn in F; lia|]. cbn. now rewrite app_nil_r.
  - cbn [map fst] in N. inversion N as [|? ? N1 N2]. subst. unfold multi_part in *. cbn [flat_map fst snd] in *. rewrite <- app_assoc.
    rewrite app_length in F.
    assert (L : (length (strings_of m) <= length (flat_map (fun v => k :: v ++ [0%Z]) (strings_of m)))%nat).
    { generalize (strings_of m). induction l0 as [|v vs IHv]; cbn [flat_map length]; [lia|]. cbn [app length]. rewrite !app_length. cbn. lia. }
    replace fuel with (length (strings_of m) + (fuel - length (strings_of m)))%nat by lia.
    assert (HZ : forall v, In v (strings_of m) -> 1 <= k < 256 /\ ~ In 0 v) by (intros v V; apply (H k m v); [now left|assumption]).
    assert (NK : ~ In k (map fst res)) by (apply D; now left).
    pose proof (rd_multi_strings (strings_of m) [] (fuel - length (strings_of m)) res k
      (flat_map (fun e => flat_map (fun v => fst e :: v ++ [0]) (strings_of (snd e))) l ++ [0] ++ d) HZ NK) as R.
    cbn [norm1] in R. rewrite app_nil_r in R. etransitivity; [exact R|]. cbn [app].
    etransitivity; [apply IH|].
    + assumption.
    + intros k' m' v X. apply (H k' m' v). now right.
    + intros k' X. rewrite map_app, in_app_iff. intros [Y|Y].
      * apply (D k'); [now right|assumption].
      * apply norm1_keys in Y. subst. contradiction.
    + lia.
    + unfold multi_normal. cbn [flat_map fst snd]. rewrite <- app_assoc. destruct (strings_of m) as [|? [|? ?]]; reflexivity.
Qed.
Lemma multi_rd : forall l r, multi_ok l -> rd_multi (S (length (multi_bytes l ++ r))) [] (multi_bytes l ++ r) = Some (multi_normal l, r).
Proof.
  intros l r [N H]. unfold multi_bytes. fold (multi_part l). rewrite <- app_assoc.
  rewrite (rd_multi_all l _ [] r N H); [reflexivity|cbn; auto|]. rewrite app_length. lia.
Qed.

(** ** Industry layouts *)
Lemma tile_enc : forall t b, tile_bytes t b -> encode_tile t = Some b.
Proof.
  intros t b H. destruct H as [x y id X Y N I|x y id X Y N I|x y X Y N]; unfold isbyte in *; unfold encode_tile.
  - rewrite !pack_B_ok by lia. rewrite pack_H_word by lia. reflexivity.
  - rewrite !pack_B_ok by lia. reflexivity.
  - rewrite !pack_b_ok by lia. rewrite pack_B_ok by lia. reflexivity.
Qed.
Lemma tile_init_ok : forall t b, tile_bytes t b -> tile_init t = true.
Proof.
  intros t b H. destruct H as [x y id X Y N I|x y id X Y N I|x y X Y N]; unfold isbyte in *; unfold tile_init, byte_ofs; lia.
Qed.
Lemma signed_back : forall x, -128 <= x <= 127 -> utoi8 (Z.land (x mod 256) 255) = x.
Proof.
  intros x H. rewrite (land_ones' _ 255 8) by (try reflexivity; lia). change (2 ^ 8) with 256.
  rewrite Z.mod_mod by lia. rewrite utoi8_spec by lia. destruct (_ <? _) eqn:E; lia.
Qed.
Lemma tile_3 : forall t b, tile_bytes t b -> (3 <= length b)%nat.
Proof. intros t b H. destruct H; cbn; lia. Qed.
Lemma tiles_rd : forall l bs, Forall2 tile_bytes l bs -> forall fuel k size r, (length l < fuel)%nat -> 0 <= k -> k + len l < size ->
  (k = 0 -> hd 0 (concat bs ++ [0; 128]) <> 254) ->
  rd_tiles fuel k size (concat bs ++ [0; 128] ++ r) = Some (l, r).
Proof.
  intros l bs F. induction F as [|t b l bs T _ IH]; intros fuel k size r L K S0 Hd; (destruct fuel as [|fuel]; [cbn in L; lia|]).
  - cbn [concat app rd_tiles rd_B bind]. destruct (size <=? k) eqn:E; [unfold len in S0; cbn in S0; lia|]. cbn [Z.eqb andb]. reflexivity.
  - cbn [concat]. rewrite <- app_assoc. cbn [concat] in Hd. rewrite <- app_assoc in Hd. cbn [length] in L.
    assert (LL : len (t :: l) = 1 + len l) by (unfold len; cbn [length]; lia). pose proof (len_nonneg l).
    assert (E : rd_tiles fuel (k + 1) size (concat bs ++ 0 :: 128 :: r) = Some (l, r)) by (apply (IH fuel (k + 1) size r); lia).
    pose proof (tile_init_ok t b T) as TI.
    assert (ES : (size <=? k) = false) by lia.
    assert (HH : (k =? 0) = true -> hd 0 b <> 254).
    { intros K0. assert (K1 : k = 0) by lia. specialize (Hd K1). destruct T; exact Hd. }
    destruct T as [x y id X Y N I|x y id X Y N I|x y X Y N]; unfold isbyte in *.
    + cbn [app rd_tiles rd_B bind]. rewrite ES. cbn [hd app] in HH.
      replace (negb ((x =? 254) && (k =? 0))) with true by (destruct (k =? 0); [specialize (HH eq_refl); lia|lia]).
      replace ((x =? 0) && (y =? 128)) with false by lia. cbn [Z.eqb Pos.eqb].
      rewrite rd_word by lia. cbn [bind]. rewrite TI. rewrite E. reflexivity.
    + cbn [app rd_tiles rd_B bind]. rewrite ES. cbn [hd app] in HH.
      replace (negb ((x =? 254) && (k =? 0))) with true by (destruct (k =? 0); [specialize (HH eq_refl); lia|lia]).
      replace ((x =? 0) && (y =? 128)) with false by lia.
      replace (id =? 254) with false by lia. replace (id =? 255) with false by lia. cbn [bind]. rewrite TI. rewrite E. reflexivity.
    + cbn [app rd_tiles rd_B bind]. rewrite ES. cbn [hd app] in HH.
      replace (negb ((x mod 256 =? 254) && (k =? 0))) with true by (destruct (k =? 0); [specialize (HH eq_refl); lia|lia]).
      replace ((x mod 256 =? 0) && (y mod 256 =? 128)) with false by lia. cbn [Z.eqb Pos.eqb bind].
      rewrite !signed_back by assumption. rewrite TI. rewrite E. reflexivity.
Qed.
Lemma layout_enc : forall l b, layout_bytes l b -> (do t <- concat_opt (map encode_tile l); Some (t ++ [0; 128])) = Some b.
Proof.
  intros l b (bs & F & -> & _). rewrite (map_F2 tile_bytes encode_tile tile_enc l bs F). reflexivity.
Qed.
Lemma tiles_len : forall l bs, Forall2 tile_bytes l bs -> len l <= len (concat bs).
Proof.
  intros l bs F. induction F as [|t b l bs T F IH]; [unfold len; cbn; lia|]. apply tile_3 in T. unfold len in *. cbn [concat length].
  rewrite app_length. lia.
Qed.
Lemma layout_init_ok : forall l b, layout_bytes l b -> layout_init l = true.
Proof.
  intros l b (bs & F & E & H). unfold layout_init. apply andb_true_intro. split.
  - apply forallb_forall. intros t T. clear H E. induction F as [|t' b' l bs X F IH]; [easy|].
    destruct T as [->|T]; [exact (tile_init_ok _ _ X)|auto].
  - destruct F as [|t b' l bs T F]; [reflexivity|]. subst b. cbn [concat] in H. rewrite <- !app_assoc in H.
    destruct T as [x y id X Y N I|x y id X Y N I|x y X Y N]; cbn [tile_x app hd] in *; lia.
Qed.
Definition rd_layout (size : Z) (d : bytes) : option (list itile * bytes) :=
  do (l, d) <- rd_tiles (S (length d)) 0 size d; do! (layout_init l); Some (l, d).
Lemma layout_rd : forall size l b r, layout_bytes l b -> len b <= size -> rd_layout size (b ++ r) = Some (l, r).
Proof.
  intros size l b r H B. pose proof (layout_init_ok l b H) as I. destruct H as (bs & F & -> & Hd). unfold rd_layout.
  pose proof (tiles_len l bs F) as L. unfold len in *. rewrite app_length in B. cbn [length] in B.
  rewrite <- app_assoc. rewrite (tiles_rd l bs F).
  - cbn [bind]. rewrite I. reflexivity.
  - rewrite !app_length. cbn. lia.
  - lia.
  - unfold len. lia.
  - auto.
Qed.
Lemma layouts_rd : forall size l bs r, Forall2 layout_bytes l bs -> len (concat bs) <= size ->
  rd_n (rd_layout size) (length l) (concat bs ++ r) = Some (l, r).
Proof.
  intros size l bs r F. induction F as [|x b l bs X _ IH]; intros B; cbn [length rd_n concat]; [reflexivity|].
  cbn [concat] in B. unfold len in *. rewrite app_length in B.
  rewrite <- app_assoc. rewrite (layout_rd size _ _ _ X) by (unfold len; lia). cbn [bind]. rewrite IH by lia. reflexivity.
Qed.

(** ** Registers *)
Lemma reg_bit : forall k v i b, reg_spec k v i b -> 0 <= i <= 7.
Proof. intros k v i b H. destruct H; lia. Qed.
Lemma regs_range : forall l f b, regs_spec l f b -> 0 <= f < 256.
Proof.
  intros l f b H. induction H as [|k v i b l f c R _ IH [q D]]; [lia|]. apply reg_bit in R.
  assert (C : i = 0 \/ i = 1 \/ i = 2 \/ i = 3 \/ i = 4 \/ i = 5 \/ i = 6 \/ i = 7) by lia.
  destruct C as [->|[->|[->|[->|[->|[->|[->| ->]]]]]]]; 
    repeat match goal with
    | H : context [2 ^ ?x] |- _ => let v := eval vm_compute in (2 ^ x) in change (2 ^ x) with v in H
    | |- context [2 ^ ?x] => let v := eval vm_compute in (2 ^ x) in change (2 ^ x) with v
    end; lia.
Qed.
Lemma reg_enc : forall k v i b, reg_spec k v i b -> encode_reg true (k, v) = Some (b, 2 ^ i).
Proof.
  intros k v i b H. destruct H as [n H|n H|n H| |x y H1 H2|n H|n H|n H];
    cbn [encode_reg SPRITE_FLAGS dict_get skey_beq bind state_skips Bool.eqb negb]; unfold encode_reg; cbn -[mk_bytes Z.pow];
    rewrite ?bytesb_ok by fb; reflexivity.
Qed.
Lemma regs_enc : forall l f b, regs_spec l f b -> encode_regs true l = Some (b, f).
Proof.
  intros l f b H. induction H as [|k v i b l f c R _ IH [q D]]; cbn [encode_regs]; [reflexivity|].
  rewrite (reg_enc _ _ _ _ R). cbn [bind]. rewrite IH. cbn [bind]. do 2 f_equal. apply reg_bit in R.
  rewrite D. rewrite <- Z.shiftl_mul_pow2 by lia. rewrite lor_shift; [|lia|].
  - rewrite Z.shiftl_mul_pow2 by lia. reflexivity.
  - split; [apply Z.pow_nonneg; lia|]. apply Z.pow_lt_mono_r; lia.
Qed.

Definition sub_table (p : bool) := filter (fun e => negb (state_skips (fst (fst (fst (snd e)))) p)) SPRITE_FLAGS.
Lemma rd_regs_filter : forall p f d tab,
  rd_regs tab f p d = rd_regs (filter (fun e => negb (state_skips (fst (fst (fst (snd e)))) p)) tab) f p d.
Proof.
  intros p f d tab. revert d. induction tab as [|[k [[[st mask] size] conv]] tab IH]; intros d; cbn [rd_regs filter fst snd]; [reflexivity|].
  destruct (state_skips st p) eqn:E; cbn [negb].
  - destruct (Z.land f mask =? 0); apply IH.
  - cbn [rd_regs]. rewrite E. destruct (Z.land f mask =? 0); [apply IH|].
    destruct (if size =? 0 then Some (STrue, d) else if size =? 1 then do (b, d0) <- rd_B d; Some (if conv then STemp b else SInt b, d0)
      else do (a, d0) <- rd_B d; do (b, d1) <- rd_B d0; Some (SPair a b, d1)) as [[w d']|]; [|reflexivity].
    cbn [bind]. now rewrite IH.
Qed.
Definition rd_entry (size : Z) (conv : bool) (d : bytes) : option (sval * bytes) :=
  if size =? 0 then Some (STrue, d)
  else if size =? 1 then do (b, d) <- rd_B d; Some ((if conv : bool then STemp b else SInt b), d)
  else do (a, d) <- rd_B d; do (b, d) <- rd_B d; Some (SPair a b, d).
Lemma land_pow : forall f i, 0 <= i -> (Z.land f (2 ^ i) =? 0) = negb (Z.testbit f i).
Proof. intros f i I. rewrite <- (flag_testbit f i I). unfold flag. now rewrite negb_involutive. Qed.
Definition tab_ok (p : bool) (i : Z) (tab : list (skey * (option bool * Z * Z * bool))) : Prop :=
  forall n k st mask size conv, nth_error tab n = Some (k, (st, mask, size, conv)) -> mask = 2 ^ (i + Z.of_nat n) /\ state_skips st p = false.
Definition fits (p : bool) (i : Z) (tab : list (skey * (option bool * Z * Z * bool))) (l : list (skey * sval)) : Prop :=
  forall k v j b, In (k, v) l -> reg_spec k v j b -> i <= j -> exists st mask size conv,
    nth_error tab (Z.to_nat (j - i)) = Some (k, (st, mask, size, conv)) /\ forall r, rd_entry size conv (b ++ r) = Some (v, r).
Lemma rd_regs_none : forall p f tab d, (forall k st mask size conv, In (k, (st, mask, size, conv)) tab -> Z.land f mask = 0) ->
  rd_regs tab f p d = Some ([], d).
Proof.
  intros p f tab d. induction tab as [|[k [[[st mask] size] conv]] tab IH]; intros H; cbn [rd_regs]; [reflexivity|].
  rewrite (H k st mask size conv) by now left. cbn [Z.eqb]. apply IH. intros. eapply H. right. eassumption.
Qed.
Lemma regs_spec_bits : forall l f b, regs_spec l f b -> forall k v, In (k, v) l -> exists j b', reg_spec k v j b'.
Proof.
  intros l f b H. induction H as [|k v i b l f c R _ IH D]; intros k' v' X; [easy|]. destruct X as [X|X]; [|eauto].
  apply pair_inj in X as [<- <-]. eauto.
Qed.
Lemma bits_cons : forall j f m, 0 <= j -> 0 <= m -> (2 ^ (j + 1) | f) ->
  Z.testbit (2 ^ j + f) m = if m <? j then false else if m =? j then true else Z.testbit f m.
Proof.
  intros j f m J M [q ->]. rewrite <- Z.shiftl_mul_pow2 by lia.
  assert (P : 0 <= 2 ^ j < 2 ^ (j + 1)) by (split; [apply Z.pow_nonneg; lia|apply Z.pow_lt_mono_r; lia]).
  assert (E : 2 ^ j + Z.shiftl q (j + 1) = Z.lor (2 ^ j) (Z.shiftl q (j + 1))).
  { rewrite lor_shift by (assumption || lia). now rewrite Z.shiftl_mul_pow2 by lia. }
  rewrite E. rewrite Z.lor_spec, Z.pow2_bits_eqb by lia. destruct (m <? j) eqn:C1; destruct (m =? j) eqn:C2; try lia.
  - rewrite Z.shiftl_spec_low by lia. now replace (j =? m) with false by lia.
  - now replace (j =? m) with false by lia.
Qed.
Lemma low_zero : forall i f m, 0 <= m < i -> (2 ^ i | f) -> Z.testbit f m = false.
Proof. intros i f m M [q ->]. rewrite <- Z.shiftl_mul_pow2 by lia. apply Z.shiftl_spec_low. lia. Qed.
Lemma rd_regs_gen : forall p tab i l f f0 b r, 0 <= i -> tab_ok p i tab -> fits p i tab l -> regs_spec l f b -> (2 ^ i | f) ->
  (forall j, i <= j -> Z.testbit f0 j = Z.testbit f j) -> rd_regs tab f0 p (b ++ r) = Some (l, r).
Proof.
  intros p tab. induction tab as [|[k0 [[[st mask] size] conv]] tab IH]; intros i l f f0 b r I T Fi R D B.
  - inversion R as [|k v j b1 l' f' c R1 R2 D1]; subst; [reflexivity|].
    pose proof (reg_bit _ _ _ _ R1) as JB.
    assert (J : i <= j).
    { destruct (Z_lt_le_dec j i) as [X|X]; [|assumption]. exfalso.
      pose proof (low_zero i _ j (conj (proj1 JB) X) D) as E. rewrite bits_cons in E by (lia || assumption).
      rewrite Z.ltb_irrefl, Z.eqb_refl in E. discriminate. }
    destruct (Fi k v j b1 (or_introl eq_refl) R1 J) as (? & ? & ? & ? & X & _). destruct (Z.to_nat (j - i)); discriminate.
  - destruct (T 0%nat k0 st mask size conv eq_refl) as [M Sk]. rewrite Z.add_0_r in M. subst mask.
    assert (T' : tab_ok p (i + 1) tab).
    { intros n k st' mask' size' conv' N. destruct (T (S n) k st' mask' size' conv' N) as [M' S']. split; [|assumption].
      rewrite M'. f_equal. lia. }
    assert (Fi' : forall l', incl l' l -> fits p (i + 1) tab l').
    { intros l' Inc k v j b' X R' J. destruct (Fi k v j b' (Inc _ X) R') as (st' & m' & s' & c' & N & E); [lia|].
      exists st', m', s', c'. split; [|assumption]. replace (Z.to_nat (j - i)) with (S (Z.to_nat (j - (i + 1)))) in N by lia. exact N. }
    cbn [rd_regs]. rewrite land_pow by assumption. rewrite (B i) by lia.
    inversion R as [|k v j b1 l' f' c R1 R2 D1]; subst.
    + rewrite Z.bits_0. cbn [negb]. apply (IH (i + 1) [] 0 f0 [] r); [lia|assumption|apply Fi'; easy|constructor|apply Z.divide_0_r|].
      intros j J. apply B. lia.
    + pose proof (reg_bit _ _ _ _ R1) as JB.
      assert (J : i <= j).
      { destruct (Z_lt_le_dec j i) as [X|X]; [|assumption]. exfalso.
        pose proof (low_zero i _ j (conj (proj1 JB) X) D) as E. rewrite bits_cons in E by (lia || assumption).
        rewrite Z.ltb_irrefl, Z.eqb_refl in E. discriminate. }
      rewrite bits_cons by (lia || assumption). destruct (i <? j) eqn:C.
      * cbn [negb]. apply (IH (i + 1) ((k, v) :: l') (2 ^ j + f') f0 (b1 ++ c) r);
          [lia|assumption|apply Fi'; intros x X; exact X|assumption| |intros m M; apply B; lia].
        apply Z.divide_add_r.
        -- exists (2 ^ (j - (i + 1))). rewrite <- Z.pow_add_r by lia. f_equal. lia.
        -- destruct D1 as [q ->]. exists (q * 2 ^ (j - i)). rewrite <- Z.mul_assoc, <- Z.pow_add_r by lia. do 2 f_equal. lia.
      * assert (j = i) by lia. subst j. rewrite Z.eqb_refl. cbn [negb]. rewrite Sk.
        destruct (Fi k v i b1 (or_introl eq_refl) R1 J) as (st' & m' & s' & c' & N & E).
        replace (Z.to_nat (i - i)) with 0%nat in N by lia. cbn [nth_error] in N. apply some_inj in N.
        apply pair_inj in N as [-> N]. apply pair_inj in N as [N ->]. apply pair_inj in N as [N ->]. rewrite <- app_assoc.
        specialize (E (c ++ r)). unfold rd_entry in E. rewrite E. cbn [bind].
        rewrite (IH (i + 1) l' f' f0 c r).
        -- reflexivity.
        -- lia.
        -- assumption.
        -- apply Fi'. intros x X. now right.
        -- assumption.
        -- assumption.
        -- intros m M. rewrite (B m) by lia. rewrite bits_cons by (lia || assumption).
           replace (m <? i) with false by lia. now replace (m =? i) with false by lia.
Qed.
Lemma rd_regs_ok : forall p l f b r, regs_spec l f b -> (p = false -> forall k v, In (k, v) l -> k <> KDeltaParentXY /\ k <> KDeltaParentZ) ->
  rd_regs SPRITE_FLAGS f p (b ++ r) = Some (l, r).
Proof.
  intros p l f b r R G. rewrite rd_regs_filter. fold (sub_table p). apply (rd_regs_gen p (sub_table p) 0 l f f b r);
    [lia| | |assumption|exists f; change (2 ^ 0) with 1; lia|reflexivity].
  - intros n k st mask size conv N. destruct p; cbn in N;
      do 8 (destruct n as [|n]; [cbn in N; apply some_inj in N; apply pair_inj in N as [_ N]; apply pair_inj in N as [N _];
        apply pair_inj in N as [N _]; apply pair_inj in N as [<- <-]; split; reflexivity|cbn [nth_error] in N]); destruct n; discriminate.
  - intros k v j b' X R' J. destruct p.
    + destruct R'; do 4 eexists; (split; [reflexivity|intro; reflexivity]).
    + destruct (G eq_refl k v X) as [G1 G2].
      destruct R'; try congruence; do 4 eexists; (split; [reflexivity|intro; reflexivity]).
Qed.

(** ** Station layouts *)
Lemma ground_enc : forall g b, ground_bytes g b -> encode_ground g = Some b.
Proof.
  intros g b [r regs f c O R G]. unfold encode_ground. cbn [gr_regs gr_ref]. rewrite (regs_enc _ _ _ R). cbn [bind].
  rewrite ref_enc by assumption. rewrite pack_H_word by (pose proof (regs_range _ _ _ R); lia). cbn [concat_opt bind].
  rewrite app_nil_r, <- app_assoc. reflexivity.
Qed.
Lemma parent_enc : forall p b, parent_bytes p b -> encode_parent p = Some b.
Proof.
  intros p b [r regs f c x y z ex ey ez O R Bs Z8]. unfold encode_parent. cbn [pa_regs pa_ref pa_offset pa_extent].
  rewrite (regs_enc _ _ _ R). cbn [bind]. rewrite ref_enc by assumption.
  rewrite pack_H_word by (pose proof (regs_range _ _ _ R); lia).
  rewrite (bytesb_ok [x; y; z]) by (clear - Bs; repeat match goal with H : Forall _ (_ :: _) |- _ => inversion H; subst; clear H end; fb).
  rewrite (bytesb_ok [ex; ey; ez]) by (clear - Bs; repeat match goal with H : Forall _ (_ :: _) |- _ => inversion H; subst; clear H end; fb).
  cbn [concat_opt bind]. rewrite <- !app_assoc. reflexivity.
Qed.
Lemma lor_64 : forall n, 0 <= n < 64 -> Z.lor n 64 = n + 64.
Proof. intros n H. change 64 with (Z.shiftl 1 6) at 1. rewrite lor_shift by (try change (2 ^ 6) with 64; lia). reflexivity. Qed.
Lemma slayout_enc : forall s b, slayout_bytes s b -> (do s <- s; encode_slayout s) = Some b.
Proof.
  intros s b [g gb ps pbs G P L]. cbn [bind]. unfold encode_slayout. cbn [sl_parents sl_ground].
  replace (len ps <? 64) with true by lia. cbn [concat_opt]. pose proof (len_nonneg ps).
  rewrite lor_64 by lia. rewrite (Z.add_comm (len ps)). rewrite bytesb_ok by fb. cbn [bind]. rewrite (ground_enc g gb G). cbn [bind].
  rewrite (map_F2 parent_bytes encode_parent parent_enc ps pbs P). reflexivity.
Qed.
Lemma parts_rd : forall ps pbs, Forall2 parent_bytes ps pbs -> forall cur r,
  rd_parts (length ps) true cur (concat pbs ++ r) = Some (cur :: map TParent ps, r).
Proof.
  intros ps pbs F. induction F as [|p b ps pbs [rf regs f c x y z ex ey ez O R Bs Z8] _ IH]; intros cur r; cbn [length rd_parts concat map].
  - reflexivity.
  - rewrite <- !app_assoc. unfold rd_sprite. rewrite ref_rd_I by assumption. cbn [bind].
    rewrite rd_word by (pose proof (regs_range _ _ _ R); lia). cbn [bind app rd_B]. rewrite ref_from by assumption.
    replace (z =? 128) with false by lia. cbn [bind]. rewrite (rd_regs_ok true regs f c) by (assumption || discriminate). cbn [bind].
    rewrite IH. reflexivity.
Qed.
Lemma parents_map : forall ps, parents_of (map TParent ps) = ps.
Proof. induction ps as [|p ps IH]; cbn; congruence. Qed.
Lemma slayout_rd : forall s b r, slayout_bytes s b -> rd_slayout (b ++ r) = Some (s, r).
Proof.
  intros s b r [g gb ps pbs [rf regs f c O R Gd] P L]. pose proof (len_nonneg ps). unfold rd_slayout. cbn [app rd_B bind].
  replace (Z.land (64 + len ps) 64) with 64.
  - replace (Z.land (64 + len ps) 63) with (len ps).
    + cbn [Z.eqb negb]. rewrite <- !app_assoc. unfold rd_sprite. rewrite ref_rd_I by assumption. cbn [bind].
      rewrite rd_word by (pose proof (regs_range _ _ _ R); lia). cbn [bind]. rewrite (rd_regs_ok false regs f c) by auto. cbn [bind].
      rewrite len_nat, (parts_rd ps pbs P). cbn [bind slayout_of]. rewrite parents_map, ref_from by assumption. reflexivity.
    + rewrite (land_ones' _ 63 6) by (reflexivity || lia). change (2 ^ 6) with 64. lia.
  - rewrite (Z.add_comm 64). rewrite <- (lor_64 (len ps)) by lia. rewrite Z.land_lor_distr_l.
    rewrite (Z.land_comm (len ps)). change 64 with (Z.shiftl 1 6) at 2. rewrite (Z.land_comm (Z.shiftl 1 6)).
    rewrite land_shift_0 by (try change (2 ^ 6) with 64; lia). reflexivity.
Qed.

(** ** Values *)
Lemma F2_labels : forall l bs, Forall2 label_bytes l bs -> concat_opt (map encode_label l) = Some (concat bs).
Proof. apply (map_F2 label_bytes encode_label label_enc). Qed.
Lemma F2_labels_rd : forall l bs r, Forall2 label_bytes l bs -> rd_n rd_label (length l) (concat bs ++ r) = Some (map LBytes bs, r).
Proof. intros l bs r F. apply (rd_F2 label_bytes (fun x => x) LBytes rd_label label_rd l bs r F). Qed.
Lemma one_byte : forall n l, 0 <= n < 256 -> forall x, concat_opt l = Some x -> concat_opt (mk_bytes [n] :: l) = Some ([n] ++ x).
Proof. intros n l N x X. rewrite concat_cons, bytesb_ok by fb. cbn [bind]. rewrite X. reflexivity. Qed.

Lemma pairs_enc : forall l, Forall (fun e : Z * Z => isbyte (fst e) /\ isbyte (snd e)) l ->
  concat_opt (map (fun e : Z * Z => mk_bytes [fst e; snd e]) l) = Some (flat_map (fun e => [fst e; snd e]) l).
Proof.
  intros l F. induction F as [|[x y] l [X Y] _ IH]; cbn [map concat_opt flat_map]; [reflexivity|].
  cbn [fst snd] in *. rewrite IH. rewrite bytesb_ok by fb. reflexivity.
Qed.
Lemma pairs_rd : forall l r, rd_n rd_pair (length l) (flat_map (fun e : Z * Z => [fst e; snd e]) l ++ r) = Some (l, r).
Proof.
  induction l as [|[x y] l IH]; intros r; cbn [length rd_n flat_map app fst snd]; [reflexivity|].
  unfold rd_pair at 1. cbn [rd_B bind]. rewrite IH. reflexivity.
Qed.
Lemma table_enc : forall t, length t = 32%nat -> Forall ref_ok t -> encode_table t = Some (flat_map ref_bytes t).
Proof.
  intros t L F. unfold encode_table, len. rewrite L. cbn [Z.of_nat Pos.of_succ_nat Pos.succ Z.eqb Pos.eqb]. clear L.
  induction F as [|r t R _ IH]; cbn [map concat_opt flat_map]; [reflexivity|]. rewrite ref_enc by assumption. cbn [bind].
  now rewrite IH.
Qed.
Lemma refs_rd : forall t d, Forall ref_ok t -> rd_n rd_ref (length t) (flat_map ref_bytes t ++ d) = Some (t, d).
Proof.
  intros t d F. induction F as [|r t R _ IH]; cbn [length rd_n flat_map]; [reflexivity|]. rewrite <- app_assoc, ref_rd by assumption.
  cbn [bind]. now rewrite IH.
Qed.
Lemma tables_enc : forall t, Forall (fun x => length x = 32%nat /\ Forall ref_ok x) t ->
  concat_opt (map encode_table t) = Some (flat_map (flat_map ref_bytes) t).
Proof.
  intros t F. induction F as [|x t [L R] _ IH]; cbn [map concat_opt flat_map]; [reflexivity|]. rewrite table_enc by assumption.
  cbn [bind]. now rewrite IH.
Qed.
Lemma rd_n_flat : forall {A} (enc : A -> bytes) rd l r, Forall (fun x => forall r, rd (enc x ++ r) = Some (x, r)) l ->
  rd_n rd (length l) (flat_map enc l ++ r) = Some (l, r).
Proof.
  intros A enc rd l r F. induction F as [|x l X _ IH]; cbn [length rd_n flat_map]; [reflexivity|]. rewrite <- app_assoc, X.
  cbn [bind]. now rewrite IH.
Qed.
Lemma tables_rd : forall t d, Forall (fun x => length x = 32%nat /\ Forall ref_ok x) t ->
  rd_n (rd_n rd_ref 32) (length t) (flat_map (flat_map ref_bytes) t ++ d) = Some (t, d).
Proof.
  intros t d F. apply rd_n_flat. eapply Forall_impl; [|exact F]. intros x [L R] r. rewrite <- L. now apply refs_rd.
Qed.

(** Dates *)
Lemma date_facts : forall d n, valid_date d -> 1 <= d_year d <= 9999 -> to_days d = Some n ->
  date_to_days d = n /\ 366 <= n <= 3652424 /\ days_to_date n = DVDatetime d.
Proof.
  intros d n V Y T. apply valid_iff in V. pose proof (date_to_days_eq d V ltac:(lia)) as E. rewrite T in E. apply some_inj in E. subst n.
  split; [reflexivity|]. split; [now apply date_to_days_range|now apply days_to_date_to_days].
Qed.
Lemma date_far : forall d n, valid_date d -> d_year d = 0 \/ 9999 < d_year d -> to_days d = Some n ->
  0 <= n /\ (n < 366 \/ 3652424 < n).
Proof.
  intros d n V Y T. apply valid_iff in V. pose proof (day_of_year_range d V) as R. rewrite to_days_eq in T by (destruct V; lia).
  apply some_inj in T. destruct Y as [Y|Y].
  - rewrite Y in *. change (days_till 0) with 0 in T. change (year_len 0) with 366 in R. lia.
  - destruct (Z.eq_dec (d_year d) 10000) as [Y'|].
    + rewrite Y' in T. change (days_till 10000) with 3652425 in T. lia.
    + pose proof (days_till_mono 10000 (d_year d) ltac:(lia) ltac:(lia)) as M.
      change (days_till 10000 + year_len 10000) with 3652791 in M. lia.
Qed.

Lemma codes_enc : forall f v w b, codes f v w b -> encode_value f v = Some b.
Proof.
  intros f v w b H. destruct H; cbn [encode_value].
  - now apply pack_B_ok.
  - apply pack_b_ok. lia.
  - now apply pack_H_word.
  - now apply pack_I_dword_ok.
  - apply label_enc. now constructor.
  - apply label_enc. now constructor.
  - rewrite pack_H_word by assumption. reflexivity.
  - pose proof (len_nonneg b). rewrite pack_B_ok by lia. cbn [concat_opt bind]. now rewrite app_nil_r.
  - pose proof (len_nonneg l). rewrite pack_B_ok by lia. rewrite bytesb_ok by assumption. cbn [concat_opt bind]. now rewrite app_nil_r.
  - replace (len l =? 2) with true by lia. now apply F2_labels.
  - apply one_byte; [pose proof (len_nonneg l); lia|]. now apply F2_labels.
  - assert (E : (do! (len l =? 2); concat_opt (map (fun n => encode_label (LInt n)) l)) = Some (flat_map dword l)).
    { replace (len l =? 2) with true by lia. pose proof (F2_labels _ _ (ints_F2 l H1)) as X. rewrite map_map, <- flat_map_dword in X. exact X. }
    destruct H as [-> |[-> | ->]]; exact E.
  - assert (E : concat_opt (mk_bytes [len l] :: map (fun n => encode_label (LInt n)) l) = Some ([len l] ++ flat_map dword l)).
    { apply one_byte; [pose proof (len_nonneg l); lia|]. pose proof (F2_labels _ _ (ints_F2 l H1)) as X. rewrite map_map, <- flat_map_dword in X. exact X. }
    destruct H as [-> |[-> | ->]]; exact E.
  - destruct (date_facts d n) as (E & R & _); try assumption. cbn [dateprop_encode]. rewrite E. apply pack_I_dword_ok. lia.
  - destruct (date_facts d n) as (E & R & _); try assumption. cbn [dateprop_encode]. rewrite H1. apply pack_I_dword_ok. lia.
  - destruct (date_far d n) as [N _]; try assumption. cbn [dateprop_encode]. rewrite H1. apply pack_I_dword_ok. lia.
  - cbn [dateprop_encode]. apply pack_I_dword_ok. lia.
  - destruct (date_facts d n) as (E & R & _); try assumption. cbn [dateprop_encode]. apply pack_I_dword_ok. lia.
  - destruct H as [-> | ->]; unfold encode_id; cbn [bind]; now apply pack_H_word.
  - destruct H as [-> | ->]; unfold encode_id; cbn [bind]; unfold encode_ext; (replace (n <? 255) with true by lia); apply pack_B_ok; lia.
  - destruct H as [-> | ->]; unfold encode_id; cbn [bind]; unfold encode_ext; (replace (n <? 255) with false by lia);
      rewrite pack_H_word by lia; reflexivity.
  - now apply pack_B_ok.
  - pose proof (len_nonneg l).
    destruct H as [-> | ->]; rewrite pack_B_ok by lia; rewrite bytesb_ok by assumption; cbn [concat_opt bind]; now rewrite app_nil_r.
  - pose proof (len_nonneg b). rewrite pack_B_ok by lia. cbn [concat_opt bind]. now rewrite app_nil_r.
  - apply one_byte; [pose proof (len_nonneg l); lia|]. now apply pairs_enc.
  - now apply multi_enc.
  - pose proof (len_nonneg t). rewrite concat_cons, bytesb_ok by fb. cbn [bind]. rewrite tables_enc by assumption. reflexivity.
  - unfold encode_industry. pose proof (map_F2 layout_bytes _ layout_enc l bs H0) as X.
    match goal with |- bind ?e _ = _ => replace e with (Some (concat bs)) by (symmetry; exact X) end. cbn [bind]. pose proof (len_nonneg l).
    pose proof (len_nonneg (concat bs)). rewrite pack_B_ok by lia. rewrite pack_I_dword_ok by lia. reflexivity.
  - unfold encode_station. pose proof (len_nonneg l). replace (len l <=? 65535) with true by lia.
    rewrite !concat_cons. rewrite pack_H_word by lia. cbn [bind pack_B]. rewrite pack_B_ok by lia. cbn [bind].
    pose proof (map_F2 slayout_bytes _ slayout_enc l bs H0) as X.
    match goal with |- bind (bind ?e _) _ = _ => replace e with (Some (concat bs)) by (symmetry; exact X) end. reflexivity.
  - replace (Z.lor (Z.shiftl y 4) x) with (16 * y + x).
    + apply bytesb_ok. fb.
    + rewrite Z.lor_comm, lor_shift by (try change (2 ^ 4) with 16; lia). change (2 ^ 4) with 16. lia.
  - apply bytesb_ok. fb.
Qed.

Lemma nB_rd : forall b r, rd_slice (len b) (b ++ r) = (b, r).
Proof. exact slice_len. Qed.
Lemma codes_rd : forall f v w b r, codes f v w b -> read_value f (b ++ r) = Some (w, r).
Proof.
  intros f v w b r H. destruct H; cbn [read_value].
  - reflexivity.
  - rewrite (rd_b_pack n [n mod 256] r) by (apply pack_b_ok; lia). reflexivity.
  - rewrite rd_word by assumption. reflexivity.
  - rewrite rd_dword by assumption. reflexivity.
  - reflexivity.
  - unfold rd_slice. change (Z.to_nat 4) with 4%nat. rewrite <- H, slice_app. reflexivity.
  - rewrite rd_ext_word by assumption. reflexivity.
  - cbn [app rd_B bind]. rewrite nB_rd. reflexivity.
  - cbn [app rd_B bind]. rewrite nB_rd. reflexivity.
  - assert (L : 2%nat = length l) by (unfold len in H; lia). rewrite L. rewrite (F2_labels_rd l bs r H0). reflexivity.
  - cbn [app rd_B bind]. rewrite len_nat, (F2_labels_rd l bs r H0). reflexivity.
  - assert (L : 2%nat = length (map LInt l)) by (rewrite map_length; unfold len in H0; lia). rewrite L.
    rewrite flat_map_dword, (F2_labels_rd _ _ r (ints_F2 l H1)). cbn [bind]. now rewrite map_map.
  - cbn [app rd_B bind]. rewrite len_nat. replace (length l) with (length (map LInt l)) by apply map_length.
    rewrite flat_map_dword, (F2_labels_rd _ _ r (ints_F2 l H1)). cbn [bind]. now rewrite map_map.
  - destruct (date_facts d n) as (E & R & D); try assumption. unfold dateprop_read. rewrite rd_dword by lia. cbn [bind]. now rewrite D.
  - destruct (date_facts d n) as (E & R & D); try assumption. unfold dateprop_read. rewrite rd_dword by lia. cbn [bind]. now rewrite D.
  - destruct (date_far d n) as [N F]; try assumption. unfold dateprop_read. rewrite rd_dword by lia. cbn [bind].
    unfold days_to_date. replace ((n <? 366) || (3652424 <? n)) with true by lia. reflexivity.
  - unfold dateprop_read. rewrite rd_dword by lia. cbn [bind].
    unfold days_to_date. replace ((n <? 366) || (3652424 <? n)) with true by lia. reflexivity.
  - destruct (date_facts d n) as (E & R & D); try assumption. unfold dateprop_read. rewrite rd_dword by lia. cbn [bind]. now rewrite D.
  - rewrite rd_word by assumption. reflexivity.
  - cbn [app]. rewrite rd_ext_short by lia. reflexivity.
  - rewrite rd_ext_word by lia. reflexivity.
  - reflexivity.
  - cbn [app rd_B bind]. rewrite nB_rd. reflexivity.
  - cbn [app rd_B bind]. rewrite nB_rd. reflexivity.
  - cbn [app rd_B bind]. rewrite len_nat, pairs_rd. reflexivity.
  - rewrite multi_rd by assumption. reflexivity.
  - cbn [app rd_B bind]. rewrite len_nat. pose proof (tables_rd t r H1) as T. unfold rd_ref in T. rewrite T. reflexivity.
  - unfold rd_industry. cbn [app rd_B bind]. rewrite <- app_assoc. pose proof (len_nonneg (concat bs)). rewrite rd_dword by lia. cbn [bind].
    rewrite len_nat. pose proof (layouts_rd (len (concat bs)) l bs r H0 ltac:(lia)) as L. unfold rd_layout in L. rewrite L. reflexivity.
  - pose proof (len_nonneg l). rewrite app_assoc. rewrite <- app_assoc. rewrite rd_ext_word by lia. cbn [bind].
    rewrite len_nat, (rd_F2' slayout_bytes rd_slayout slayout_rd l bs r H0). reflexivity.
  - cbn [app rd_B bind]. do 4 f_equal.
    + rewrite (land_ones' _ 15 4) by (reflexivity || lia). change (2 ^ 4) with 16. lia.
    + f_equal. rewrite Z.shiftr_div_pow2 by lia. change (2 ^ 4) with 16. lia.
  - cbn [app rd_B bind]. do 4 f_equal.
    + rewrite (land_ones' _ 15 4) by (reflexivity || lia). change (2 ^ 4) with 16. lia.
    + f_equal. rewrite Z.shiftr_div_pow2 by lia. change (2 ^ 4) with 16. lia.
Qed.
