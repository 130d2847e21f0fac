(** Lemmas about what NewGRF writes about itself. *)
From Coq Require Import ZArith List Bool Lia String FinFun.
From Verif Require Import Base BaseFacts CommonModel RecordsModel RecordsProofs IdMapProofs Action14Model SpecAction14 Action14Proofs PropModel SpecProp Action0Model PropAccept Action0Proofs
  RailtypeModel SpecRail RailProofs HeaderModel SpecHeader.
Import ListNotations.
Open Scope string_scope.
Open Scope list_scope.
Open Scope Z_scope.

Lemma pkey_eqb_ok : forall a b, pkey_eqb a b = true <-> a = b.
Proof.
  intros [a|a] [b|b]; cbn [pkey_eqb]; try (split; discriminate).
  - rewrite bytes_eqb_eq. split; [intros -> | intros E; injection E as ->]; reflexivity.
  - rewrite Z.eqb_eq. split; [intros -> | intros E; injection E as ->]; reflexivity.
Qed.
Lemma put_app d e k v : ~ In (KRaw k) (map fst d) -> put (d ++ e) k v = d ++ put e k v.
Proof.
  unfold put. induction d as [|[k' v'] d IH]; intros H; [reflexivity|]. cbn [app dict_set]. destruct (pkey_eqb (KRaw k) k') eqn:E; [apply pkey_eqb_ok in E; exfalso; apply H; left; symmetry; exact E|].
  f_equal. apply IH. intros I. apply H. now right.
Qed.

(** What __init__ puts there. *)
Definition mb {A} (k : bytes) (f : A -> pval) (v : option A) : pdict := match v with Some v => [(KRaw k, f v)] | None => [] end.
Definition base (a : args) : pdict :=
  [(KRaw PALS, PBytes [68]); (KRaw NAME, text_val (g_name a)); (KRaw DESC, text_val (g_desc a))]
  ++ mb BLTR PBytes (g_blitter a) ++ mb VRSN PInt (g_version a) ++ mb MINV PInt (g_minv a) ++ mb URL_ PStr (g_url a).
Lemma new_grf_base a : length (g_grfid a) = 4%nat -> all (fun b => b = NewGRF_BLITTER_BPP_8 \/ b = NewGRF_BLITTER_BPP_32) (g_blitter a) ->
  new_grf a = Some (mk_newgrf a (base a) [] None None).
Proof.
  intros L B. unfold new_grf. assert (E : len (g_grfid a) =? 4 = true) by (unfold len; rewrite L; reflexivity). rewrite E.
  destruct a as [gr nm ds vr mv fm ur bl]. cbn [g_grfid g_name g_desc g_version g_minv g_format g_url g_blitter] in *. unfold base. cbn [g_grfid g_name g_desc g_version g_minv g_format g_url g_blitter].
  assert (Q : match bl with Some b => bytes_eqb b [56] || bytes_eqb b [51] | None => true end = true) by (destruct bl as [b|]; [destruct B as [-> | ->]; reflexivity|reflexivity]).
  rewrite Q. destruct bl, vr, mv, ur; reflexivity.
Qed.
Lemma base_new a k : ~ In k [PALS; NAME; DESC; BLTR; VRSN; MINV; URL_] -> ~ In (KRaw k) (map fst (base a)).
Proof.
  intros H I. apply H. unfold base in I. rewrite !map_app in I. cbn [map fst] in I. rewrite !in_app_iff in I.
  assert (Q : forall A k' (f : A -> pval) v, In (KRaw k) (map fst (mb k' f v)) -> k = k').
  { intros A k' f [v|] J; [|destruct J]. destruct J as [J | []]. now injection J. }
  cbn [In] in I |- *. destruct I as [[I | [I | [I | []]]] | [I | [I | [I | I]]]]; try (injection I as I; auto); apply Q in I; auto 10.
Qed.

Definition pd (p : parameter) : pdict :=
  match p with
  | Bool n d f => [(KRaw NAME, text_val n); (KRaw DESC, text_val d); (KRaw TYPE, PBytes [1])] ++ mb DFLT (fun b : bool => PInt (if b then 1 else 0)) f
  | Int n d f l e => [(KRaw NAME, text_val n); (KRaw DESC, text_val d); (KRaw TYPE, PBytes [0])] ++ mb DFLT PInt f
      ++ mb LIMI (fun l => PBytes (le_bytes 4 (fst l) ++ le_bytes 4 (snd l))) l
      ++ mb VALU (fun e => PDict (map (fun x => (KInt (fst x), text_val (snd x))) e)) e
  end.
Lemma add_bool_pd g n d f : add_bool_parameter g n d f = add_param g (pd (Bool n d f)).
Proof. unfold add_bool_parameter. destruct f; reflexivity. Qed.
Lemma add_int_pd g n d f l e : all (fun l => fine_number (fst l) /\ fine_number (snd l)) l -> add_int_parameter g n d f l e = Some (add_param g (pd (Int n d f l e))).
Proof.
  intros L. unfold add_int_parameter. destruct l as [[lo hi]|]; cbn [bind].
  - destruct L as [L1 L2]. cbn [fst snd] in L1, L2. rewrite (pack_I_le lo L1), (pack_I_le hi L2). cbn [bind]. destruct f, e; reflexivity.
  - destruct f, e; reflexivity.
Qed.

(** ---- trees ---- *)
Lemma text_leaf t : fine_text t -> exists i is, texts t = DList (i :: is) /\ leaf_items (text_val t) (i :: is).
Proof.
  destruct t as [s|ps d]; cbn [fine_text texts text_val].
  - intros H. exists (IText 0 s), []. split; [reflexivity|]. now constructor.
  - intros (N & F & _). destruct ps as [|p ps]; [contradiction|]. cbn [map]. do 2 eexists. split; [reflexivity|]. exact (li_pairs (p :: ps) F).
Qed.
Lemma tree_text k t r dr : length k = 4%nat -> fine_text t -> tree r dr -> ~ In k (map fst dr) -> tree ((KRaw k, text_val t) :: r) ((k, texts t) :: dr).
Proof. intros K F T N. destruct (text_leaf t F) as (i & is & -> & L). exact (tr_leaf (KRaw k) (text_val t) r i is dr K L T N). Qed.
Lemma tree_texti k t r dr : fine_number k -> fine_text t -> tree r dr -> ~ In (le_bytes 4 k) (map fst dr) -> tree ((KInt k, text_val t) :: r) ((le_bytes 4 k, texts t) :: dr).
Proof. intros K F T N. destruct (text_leaf t F) as (i & is & -> & L). exact (tr_leaf (KInt k) (text_val t) r i is dr K L T N). Qed.
Lemma tree_bin k b r dr : length k = 4%nat -> (length b < Z.to_nat 65536)%nat -> tree r dr -> ~ In k (map fst dr) -> tree ((KRaw k, PBytes b) :: r) ((k, binary b) :: dr).
Proof. intros K L T N. exact (tr_leaf (KRaw k) (PBytes b) r (IBin b) [] dr K (li_bin b L) T N). Qed.
Lemma tree_int k n r dr : length k = 4%nat -> fine_number n -> tree r dr -> ~ In k (map fst dr) -> tree ((KRaw k, PInt n) :: r) ((k, number4 n) :: dr).
Proof. intros K L T N. exact (tr_leaf (KRaw k) (PInt n) r _ [] dr K (li_int n L) T N). Qed.
Lemma le4_inj a b : fine_number a -> fine_number b -> le_bytes 4 a = le_bytes 4 b -> a = b.
Proof.
  intros A B E. apply (f_equal le_value) in E. rewrite !le_value_bytes in E. change (8 * Z.of_nat 4) with 32 in E. unfold fine_number in *. rewrite !Z.mod_small in E by assumption. exact E.
Qed.

Ltac fresh_key := cbn; intros H_; repeat (destruct H_ as [H_ | H_]); try discriminate H_; try contradiction H_.
Lemma enum_tree e : NoDup (map fst e) -> Forall (fun x => fine_number (fst x) /\ fine_text (snd x)) e ->
  tree (map (fun x : Z * text => (KInt (fst x), text_val (snd x))) e) (map (fun x => (le_bytes 4 (fst x), texts (snd x))) e).
Proof.
  intros N F. induction F as [|[k t] e [K T] F IH]; [constructor|]. inversion N as [|? ? N1 N2]; subst. cbn [map fst snd] in *. apply tree_texti; auto.
  rewrite map_map. cbn [fst]. intros I. apply in_map_iff in I as ([k' t'] & E & I). cbn [fst] in E. apply N1. replace k with k'; [exact (in_map fst _ _ I)|].
  apply le4_inj; auto. exact (proj1 (proj1 (Forall_forall _ _) F _ I)).
Qed.
Lemma pd_tree p : fine_parameter p -> tree (pd p) (parameter_dict p).
Proof.
  destruct p as [n d f|n d f l e].
  - intros [N D]. cbn [pd parameter_dict app]. apply tree_text; [reflexivity|exact N| |].
    + apply tree_text; [reflexivity|exact D| |].
      * apply tree_bin; [reflexivity|cbn; lia| |].
        -- destruct f as [b|]; [|constructor]. cbn [mb maybe]. apply tree_int; [reflexivity|destruct b; unfold fine_number; lia|constructor|intros []].
        -- destruct f; fresh_key.
      * destruct f; fresh_key.
    + destruct f; fresh_key.
  - intros (N & D & F & L & E). cbn [pd parameter_dict app].
    assert (T1 : tree (mb VALU (fun e => PDict (map (fun x => (KInt (fst x), text_val (snd x))) e)) e) (maybe VALU (fun e => DDict (map (fun x => (le_bytes 4 (fst x), texts (snd x))) e)) e)).
    { destruct e as [e|]; [|constructor]. cbn [mb maybe]. destruct E as [E1 E2]. apply (tr_dict (KRaw VALU)); [reflexivity|exact (enum_tree e E1 E2)|constructor|intros []]. }
    assert (T2 : tree (mb LIMI (fun l => PBytes (le_bytes 4 (fst l) ++ le_bytes 4 (snd l))) l ++ mb VALU (fun e => PDict (map (fun x => (KInt (fst x), text_val (snd x))) e)) e)
       (maybe LIMI (fun l => binary (le_bytes 4 (fst l) ++ le_bytes 4 (snd l))) l ++ maybe VALU (fun e => DDict (map (fun x => (le_bytes 4 (fst x), texts (snd x))) e)) e)).
    { destruct l as [l|]; [|exact T1]. cbn [mb maybe app]. apply tree_bin; [reflexivity|rewrite app_length, !le_bytes_len; lia|exact T1|destruct e; fresh_key]. }
    assert (T3 : tree (mb DFLT PInt f ++ mb LIMI (fun l => PBytes (le_bytes 4 (fst l) ++ le_bytes 4 (snd l))) l ++ mb VALU (fun e => PDict (map (fun x => (KInt (fst x), text_val (snd x))) e)) e)
       (maybe DFLT number4 f ++ maybe LIMI (fun l => binary (le_bytes 4 (fst l) ++ le_bytes 4 (snd l))) l ++ maybe VALU (fun e => DDict (map (fun x => (le_bytes 4 (fst x), texts (snd x))) e)) e)).
    { destruct f as [f|]; [|exact T2]. cbn [mb maybe app]. apply tree_int; [reflexivity|exact F|exact T2|destruct l, e; fresh_key]. }
    apply tree_text; [reflexivity|exact N| |destruct f, l, e; fresh_key].
    apply tree_text; [reflexivity|exact D| |destruct f, l, e; fresh_key].
    apply tree_bin; [reflexivity|cbn; lia|exact T3|destruct f, l, e; fresh_key].
Qed.
Lemma dicts_keys ps : forall i k, In k (map fst (parameter_dicts i ps)) -> exists j, i <= j < i + len ps /\ k = le_bytes 4 j.
Proof.
  induction ps as [|p ps IH]; intros i k I; [destruct I|]. cbn [parameter_dicts map fst] in I. unfold len in *. cbn [List.length]. destruct I as [<- | I]; [exists i; split; [lia|reflexivity]|].
  destruct (IH (i + 1) k I) as (j & B & ->). exists j. split; [lia|reflexivity].
Qed.
Lemma params_tree ps : forall i, 0 <= i -> i + len ps <= 2 ^ 32 -> Forall fine_parameter ps -> tree (numbered i (map pd ps)) (parameter_dicts i ps).
Proof.
  induction ps as [|p ps IH]; intros i I B F; [constructor|]. inversion F as [|? ? F1 F2]; subst. cbn [map numbered parameter_dicts]. unfold len in *. cbn [List.length] in B.
  assert (T : tree (numbered (i + 1) (map pd ps)) (parameter_dicts (i + 1) ps)) by (apply IH; [lia|lia|exact F2]).
  apply (tr_dict (KInt i)); [cbn; lia|exact (pd_tree p F1)|exact T|]. cbn [tag_of]. intros J. apply dicts_keys in J as (j & Bj & E). unfold len in Bj.
  apply le4_inj in E; unfold fine_number; lia.
Qed.
Definition tail14 (ps : list parameter) : pdict :=
  match ps with [] => [] | _ => [(KRaw NPAR, PBytes [len ps]); (KRaw PARA, PDict (numbered 0 (map pd ps)))] end.
Lemma base_tree0 a ps d0 : fine_args a -> tree (tail14 ps) d0 -> (forall k, In k [PALS; NAME; DESC; BLTR; VRSN; MINV; URL_] -> ~ In k (map fst d0)) ->
  tree (base a ++ tail14 ps) ([(PALS, binary [68]); (NAME, texts (g_name a)); (DESC, texts (g_desc a))]
     ++ maybe BLTR binary (g_blitter a) ++ maybe VRSN number4 (g_version a) ++ maybe MINV number4 (g_minv a) ++ maybe URL_ (fun u => texts (TStr u)) (g_url a) ++ d0).
Proof.
  intros (GL & GN & GD & GV & GM & GF & GU & GB) T0 NK. unfold base. rewrite <- !app_assoc. cbn [app].
  assert (T1 : tree (mb URL_ PStr (g_url a) ++ tail14 ps) (maybe URL_ (fun u => texts (TStr u)) (g_url a) ++ d0)).
  { destruct (g_url a) as [u|]; [|exact T0]. cbn [mb maybe app]. change (PStr u) with (text_val (TStr u)). apply tree_text; [reflexivity|exact GU|exact T0|apply NK; cbn; auto 10]. }
  assert (T2 : tree (mb MINV PInt (g_minv a) ++ mb URL_ PStr (g_url a) ++ tail14 ps) (maybe MINV number4 (g_minv a) ++ maybe URL_ (fun u => texts (TStr u)) (g_url a) ++ d0)).
  { destruct (g_minv a) as [u|]; [|exact T1]. cbn [mb maybe app]. apply tree_int; [reflexivity|exact GM|exact T1|]. rewrite map_app, in_app_iff. intros [I | I]; [destruct (g_url a); revert I; fresh_key|revert I; apply NK; cbn; auto 10]. }
  assert (T3 : tree (mb VRSN PInt (g_version a) ++ mb MINV PInt (g_minv a) ++ mb URL_ PStr (g_url a) ++ tail14 ps) (maybe VRSN number4 (g_version a) ++ maybe MINV number4 (g_minv a) ++ maybe URL_ (fun u => texts (TStr u)) (g_url a) ++ d0)).
  { destruct (g_version a) as [u|]; [|exact T2]. cbn [mb maybe app]. apply tree_int; [reflexivity|exact GV|exact T2|]. rewrite !map_app, !in_app_iff.
    intros [I | [I | I]]; [destruct (g_minv a); revert I; fresh_key|destruct (g_url a); revert I; fresh_key|revert I; apply NK; cbn; auto 10]. }
  assert (T4 : tree (mb BLTR PBytes (g_blitter a) ++ mb VRSN PInt (g_version a) ++ mb MINV PInt (g_minv a) ++ mb URL_ PStr (g_url a) ++ tail14 ps)
     (maybe BLTR binary (g_blitter a) ++ maybe VRSN number4 (g_version a) ++ maybe MINV number4 (g_minv a) ++ maybe URL_ (fun u => texts (TStr u)) (g_url a) ++ d0)).
  { destruct (g_blitter a) as [u|]; [|exact T3]. cbn [mb maybe app]. apply tree_bin; [reflexivity|destruct GB as [-> | ->]; cbn; lia|exact T3|]. rewrite !map_app, !in_app_iff.
    intros [I | [I | [I | I]]]; [destruct (g_version a); revert I; fresh_key|destruct (g_minv a); revert I; fresh_key|destruct (g_url a); revert I; fresh_key|revert I; apply NK; cbn; auto 10]. }
  assert (NM : forall k, In k [PALS; NAME; DESC] -> ~ In k (map fst (maybe BLTR binary (g_blitter a) ++ maybe VRSN number4 (g_version a) ++ maybe MINV number4 (g_minv a) ++ maybe URL_ (fun u => texts (TStr u)) (g_url a) ++ d0))).
  { intros k K. rewrite !map_app, !in_app_iff. intros I.
    assert (Q : forall A k' (f : A -> dval) v, In k (map fst (maybe k' f v)) -> k = k'). { intros A k' f [v|] J; [|destruct J]. destruct J as [J | []]. now symmetry. }
    destruct I as [I | [I | [I | [I | I]]]]; try (apply Q in I; subst k; cbn in K; repeat (destruct K as [K | K]; [discriminate K|]); exact K).
    revert I. apply NK. cbn in K |- *. destruct K as [K | [K | [K | []]]]; auto. }
  apply tree_bin; [reflexivity|cbn; lia| |cbn [map fst]; intros [H | [H | H]]; [discriminate H|discriminate H|revert H; apply NM; cbn; auto]].
  apply tree_text; [reflexivity|exact GN| |cbn [map fst]; intros [H | H]; [discriminate H|revert H; apply NM; cbn; auto]].
  apply tree_text; [reflexivity|exact GD|exact T4|apply NM; cbn; auto].
Qed.

Lemma base_tree a ps : fine_args a -> Forall fine_parameter ps -> len ps <= 255 -> tree [(KRaw INFO, PDict (base a ++ tail14 ps))] (described a ps).
Proof.
  intros FA F L. unfold described. apply (tr_dict (KRaw INFO)); [reflexivity| |constructor|intros []]. apply base_tree0; [exact FA| |].
  - destruct ps as [|p ps]; [constructor|]. unfold tail14. apply tree_bin; [reflexivity|cbn; lia| |fresh_key].
    apply (tr_dict (KRaw PARA)); [reflexivity| |constructor|intros []]. apply params_tree; [lia|lia|exact F].
  - intros k K I. destruct ps as [|p ps]; [destruct I|]. cbn [map fst] in I. destruct I as [<- | [<- | []]]; cbn in K; repeat (destruct K as [K | K]; [discriminate K|]); exact K.
Qed.

(** ---- cargo table ---- *)
Fixpoint counted (i : Z) (l : list bytes) : list (bytes * Z) := match l with [] => [] | c :: l => (c, i) :: counted (i + 1) l end.
Lemma number_spec l : forall i t, NoDup (map fst t ++ l) -> number i t l = t ++ counted i l.
Proof.
  induction l as [|c l IH]; intros i t N; cbn [number counted]; [now rewrite app_nil_r|].
  assert (~ In c (map fst t)) by (apply NoDup_remove_2 in N; intros I; apply N, in_or_app; now left).
  rewrite (dict_set_fresh bytes_eqb bytes_eqb_ok) by assumption. rewrite IH; [now rewrite <- app_assoc|]. rewrite map_app. cbn [map fst]. now rewrite <- app_assoc.
Qed.
Lemma counted_keys l : forall i, map fst (counted i l) = l.
Proof. induction l as [|c l IH]; intros i; cbn [counted map fst]; [reflexivity|]. now rewrite IH. Qed.
Lemma counted_nth l : forall i n c, nth_error l n = Some c -> In (c, i + Z.of_nat n) (counted i l).
Proof.
  induction l as [|d l IH]; intros i [|n] c H; try discriminate H; cbn [nth_error counted] in *.
  - apply some_inj in H. subst. left. f_equal. lia.
  - right. replace (i + Z.of_nat (S n)) with (i + 1 + Z.of_nat n) by lia. auto.
Qed.
Lemma counted_in l : forall i c k, In (c, k) (counted i l) -> i <= k < i + len l /\ nth_error l (Z.to_nat (k - i)) = Some c.
Proof.
  induction l as [|d l IH]; intros i c k H; [destruct H|]. cbn [counted] in H. unfold len in *. cbn [List.length]. destruct H as [H | H].
  - apply pair_inj in H as [-> ->]. split; [lia|]. now rewrite Z.sub_diag.
  - apply IH in H as [B N]. split; [lia|]. replace (Z.to_nat (k - i)) with (S (Z.to_nat (k - (i + 1)))) by lia. exact N.
Qed.
Lemma cargo_get l c : NoDup l -> dict_get bytes_eqb (number 0 [] l) c = None /\ ~ In c l \/ exists i, dict_get bytes_eqb (number 0 [] l) c = Some (Z.of_nat i) /\ nth_error l i = Some c.
Proof.
  intros N. rewrite number_spec by exact N. cbn [app]. destruct (dict_get bytes_eqb (counted 0 l) c) as [k|] eqn:G.
  - right. apply (gIn bytes_eqb bytes_eqb_ok) in G. apply counted_in in G as [B G]. exists (Z.to_nat k). rewrite Z.sub_0_r in G. split; [f_equal; lia|exact G].
  - left. split; [reflexivity|]. apply (gNone bytes_eqb bytes_eqb_ok) in G. rewrite counted_keys in G. exact G.
Qed.
Lemma cargo_record ks : Forall is4 ks -> len ks <= 255 ->
  define_data (mkDef 8 0 (len ks) [("cargo_table", map VBytes ks)]) = Some ([0; 8; 1; len ks; 255; 0; 0; 9] ++ concat ks).
Proof.
  intros H L.
  assert (C : define_codes (mkDef 8 0 (len ks) [("cargo_table", map VBytes ks)]) (mkDef 8 0 (len ks) [("cargo_table", map VBytes ks)])
    ([0; 8; len [("cargo_table", map VBytes ks)]; len ks; 255] ++ word 0 ++ (9 :: concat ks ++ []))).
  { apply dc; [lia|pose proof (len_nonneg ks); lia|reflexivity|cbn; apply NoDup_cons; [intros []|apply NoDup_nil]| |].
    - eexists. do 7 right. left. reflexivity.
    - apply pc_cons with FL; [apply by_name_has; reflexivity|unfold len; rewrite map_length; lia| |apply pc_nil].
      rewrite len_nat. replace (firstn (List.length ks) (map VBytes ks)) with (map VBytes ks); [exact (keys_code ks H)|].
      rewrite <- (map_length VBytes ks). symmetry. apply firstn_all. }
  destruct (define_ok _ _ _ C) as (_ & E & _). rewrite app_nil_r in E. exact E.
Qed.

(** ---- scripts ---- *)
Definition state (a : args) (ps : list parameter) (cargo : option (list bytes)) (ls : list (list bytes)) (g : newgrf) : Prop :=
  n_args g = a /\ (n_info g = base a \/ (ps <> [] /\ exists x y, n_info g = base a ++ [(KRaw NPAR, x); (KRaw PARA, y)]))
  /\ n_params g = map pd ps /\ n_cargo g = option_map (number 0 []) cargo
  /\ n_rails g = match ls with [] => None | _ => Some (table_of 0 ls) end.
Definition cargo_records (cargo : option (list bytes)) : list bytes :=
  match cargo with None => [] | Some l => [[0; 8; 1; len l; 255; 0; 0; 9] ++ concat l] end.

Lemma info_ok a ps cargo ls g : len ps <= 255 -> state a ps cargo ls g ->
  (match n_params g with [] => Some (n_info g) | qs => do n <- mk_bytes [len qs]; Some (put (put (n_info g) NPAR (PBytes n)) PARA (PDict (numbered 0 qs))) end)
     = Some (base a ++ tail14 ps).
Proof.
  intros L (SA & SI & SP & SC & SR). rewrite SP. destruct ps as [|p ps].
    - cbn [map tail14]. rewrite app_nil_r. destruct SI as [-> | [N _]]; [reflexivity|contradiction].
    - cbn [map tail14]. change (pd p :: map pd ps) with (map pd (p :: ps)). replace (len (map pd (p :: ps))) with (len (p :: ps)) by (unfold len; now rewrite map_length).
      assert (MB : mk_bytes [len (p :: ps)] = Some [len (p :: ps)]).
      { unfold mk_bytes, bytesb, byteb. cbn [forallb]. pose proof (len_nonneg (p :: ps)). replace (0 <=? len (p :: ps)) with true by lia. replace (len (p :: ps) <? 256) with true by lia. reflexivity. }
      rewrite MB. cbn [bind]. f_equal.
      assert (N1 : ~ In (KRaw NPAR) (map fst (base a))) by (apply base_new; cbn; intros H; repeat (destruct H as [H | H]; [discriminate H|]); exact H).
      assert (N2 : ~ In (KRaw PARA) (map fst (base a))) by (apply base_new; cbn; intros H; repeat (destruct H as [H | H]; [discriminate H|]); exact H).
      destruct SI as [-> | [_ (x & y & ->)]].
      + rewrite <- (app_nil_r (base a)). rewrite put_app by exact N1. rewrite put_app by exact N2. rewrite app_nil_r. reflexivity.
      + rewrite put_app by exact N1. rewrite put_app by exact N2. reflexivity.
Qed.
Lemma header_ok a ps cargo ls g : fine_args a -> Forall fine_parameter ps -> len ps <= 255 -> all fine_cargo cargo -> fine_rails ls -> state a ps cargo ls g ->
  exists g' x y rails, header g = Some (g', (20 :: x) :: (8 :: y) :: cargo_records cargo ++ rails) /\ state a ps cargo ls g'
    /\ decode_action14 x = Some (described a ps) /\ decode_action8 y = Some (mkA8 (g_format a) (g_grfid a) (text_default (g_name a)) (text_default (g_desc a)))
    /\ match ls with [] => rails = [] | _ => railtype_actions (table_of 0 ls) = Some rails end.
Proof.
  intros FA FP L FC (FR & FN & F255 & F128) S.
  pose proof (info_ok a ps cargo ls g L S) as I. destruct S as (SA & SI & SP & SC & SR).
  unfold header. match goal with |- context [bind ?m _] => change m with (match n_params g with [] => Some (n_info g) | qs => do n <- mk_bytes [len qs]; Some (put (put (n_info g) NPAR (PBytes n)) PARA (PDict (numbered 0 qs))) end) end.
  rewrite I. cbn [bind]. destruct (action14_rt _ _ (base_tree a ps FA FP L)) as (x & E14 & D14). rewrite E14. cbn [bind].
  destruct FA as (GL & GN & GD & GV & GM & GF & GU & GB). rewrite SA.
  assert (E8 : exists y, action8_data (mkA8 (g_format a) (g_grfid a) (text_default (g_name a)) (text_default (g_desc a))) = Some (8 :: y)
     /\ decode_action8 y = Some (mkA8 (g_format a) (g_grfid a) (text_default (g_name a)) (text_default (g_desc a)))).
  { set (r := mkA8 _ _ _ _). assert (D : exists b, action8_data r = Some b).
    { unfold action8_data. assert (MB : mk_bytes [8; a8_version r] = Some [8; g_format a]).
      { unfold mk_bytes, bytesb, byteb. cbn [forallb a8_version r]. replace (0 <=? g_format a) with true by lia. replace (g_format a <? 256) with true by lia. reflexivity. }
      rewrite MB. cbn [concat_opt bind]. eauto. }
    destruct D as [b D]. destruct (action8_rt r b D) as (y & -> & Y); [exact GL|cbn; destruct (g_name a); [exact GN|apply GN]|]. exists y. auto. }
  destruct E8 as (y & E8 & D8). rewrite E8. cbn [bind]. rewrite SC, SR.
  assert (EC : (match option_map (number 0 []) cargo with
     | None => Some [] | Some t => do r <- define_data (mkDef 8 0 (len t) [("cargo_table", map (fun e : bytes * Z => VBytes (fst e)) t)]); Some [r] end) = Some (cargo_records cargo)).
  { destruct cargo as [l|]; [|reflexivity]. cbn [option_map cargo_records]. destruct FC as (F4 & ND & FL). rewrite number_spec by exact ND. cbn [app].
    assert (LC : len (counted 0 l) = len l) by (unfold len; rewrite <- (map_length fst), counted_keys; reflexivity). rewrite LC.
    replace (map (fun e : bytes * Z => VBytes (fst e)) (counted 0 l)) with (map VBytes l) by (rewrite <- (counted_keys l 0) at 1; rewrite map_map; reflexivity).
    rewrite (cargo_record l F4 FL). reflexivity. }
  rewrite EC. cbn [bind].
  assert (ER : exists rails, (match (match ls with [] => None | _ => Some (table_of 0 ls) end) with None => Some [] | Some t => railtype_actions t end) = Some rails
     /\ match ls with [] => rails = [] | _ => railtype_actions (table_of 0 ls) = Some rails end).
  { destruct ls as [|l ls]; [exists []; auto|].
    destruct (railtypes_ok (fun _ => false) (l :: ls) (mkGame (fun _ => []) [] []) [] FR FN F255 F128 eq_refl ltac:(intros n _; reflexivity)) as (rs & f & R & _). exists rs. rewrite R. auto. }
  destruct ER as (rails & ER & RR). rewrite ER. cbn [bind]. exists (mk_newgrf a (base a ++ tail14 ps) (n_params g) (option_map (number 0 []) cargo) (match ls with [] => None | _ => Some (table_of 0 ls) end)), x, y, rails.
  split; [reflexivity|]. split; [|split; [exact D14|split; [exact D8|exact RR]]].
  unfold state. cbn [n_args n_info n_params n_cargo n_rails]. repeat split; [|exact SP].
  destruct ps as [|p ps]; [left; apply app_nil_r|right]. split; [discriminate|]. do 2 eexists. reflexivity.
Qed.

Lemma nodup_pre {A} (a b : list A) : NoDup (a ++ b) -> NoDup a.
Proof. induction a as [|x l IH]; intros B; [constructor|]. cbn [app] in B. inversion B as [|? ? B1 B2]; subst. constructor; [intros I; apply B1, in_or_app; now left|auto]. Qed.
Lemma fine_rails_pre a b : fine_rails (a ++ b) -> fine_rails a.
Proof.
  unfold fine_rails, len. rewrite map_app, filter_app, !app_length. intros (A & B & C & D). apply Forall_app in A as [A _]. split; [exact A|]. split; [|lia].
  exact (nodup_pre _ _ B).
Qed.
Lemma do_calls_app g cs ds : do_calls g (cs ++ ds) = (do g <- do_calls g cs; do_calls g ds).
Proof. revert g. induction cs as [|c cs IH]; intros g; [reflexivity|]. cbn [do_calls app]. destruct (do_call g c); cbn [bind]; [apply IH|reflexivity]. Qed.
Lemma asked_cargo_in cs l : asked_cargo cs = Some l -> In (CCargo l) cs.
Proof.
  unfold asked_cargo. enough (G : forall r, fold_left (fun r c => match c with CCargo l => Some l | _ => r end) cs r = Some l -> r = Some l \/ In (CCargo l) cs).
  { intros H. apply G in H as [H | H]; [discriminate|exact H]. }
  induction cs as [|c cs IH]; intros r H; cbn [fold_left] in H; [now left|]. apply IH in H as [H | H]; [|right; now right]. destruct c; auto. right. left. congruence.
Qed.
Lemma calls_ok a cs : fine_args a -> fine_calls cs ->
  exists g, do_calls (mk_newgrf a (base a) [] None None) cs = Some g /\ state a (asked_parameters cs) (asked_cargo cs) (asked_rails cs) g.
Proof.
  intros FA. induction cs as [|c cs IH] using rev_ind.
  - intros _. eexists. split; [reflexivity|]. unfold state. cbn. auto.
  - unfold fine_calls, asked_parameters, asked_rails, asked_cargo in *. rewrite !flat_map_app, fold_left_app. cbn [flat_map fold_left]. rewrite !app_nil_r. intros (FP & LP & FC & FR).
    pose proof FR as FR'. apply fine_rails_pre in FR'.
    assert (LP' : len (asked_parameters cs) <= 255) by (unfold len in *; rewrite app_length in LP; unfold asked_parameters; lia). apply Forall_app in FP as [FP FPc].
    assert (FC' : forall l, In (CCargo l) cs -> fine_cargo l) by (intros l I; apply FC, in_or_app; now left).
    destruct IH as (g & E & S); [split; [exact FP|]; split; [exact LP'|]; split; assumption|]. rewrite do_calls_app, E. cbn [bind do_calls].
    pose proof S as (SA & SI & SP & SC & SR).
    destruct c as [n d f|n d f l e|l|l|]; cbn [do_call]; rewrite ?app_nil_r in *.
    + rewrite add_bool_pd. cbn [bind]. eexists. split; [reflexivity|]. unfold state, add_param. cbn [n_args n_info n_params n_cargo n_rails]. rewrite SP, map_app. repeat split; auto.
      destruct SI as [SI | [_ SI]]; [now left|right]. split; [|exact SI]. intros Q. apply app_eq_nil in Q as [_ Q]. discriminate.
    + inversion FPc as [|? ? FPl _]; subst. destruct FPl as (_ & _ & _ & FLm & _). rewrite add_int_pd by exact FLm. cbn [bind]. eexists. split; [reflexivity|]. unfold state, add_param. cbn [n_args n_info n_params n_cargo n_rails].
      rewrite SP, map_app. repeat split; auto. destruct SI as [SI | [_ SI]]; [now left|right]. split; [|exact SI]. intros Q. apply app_eq_nil in Q as [_ Q]. discriminate.
    + eexists. split; [reflexivity|]. unfold state. cbn [set_cargo_table fst n_args n_info n_params n_cargo n_rails]. repeat split; auto.
    + set (ls := flat_map (fun c => match c with CRail l => [l] | _ => [] end) cs) in *. destruct FR as (FR & FN & _ & _).
      assert (NE : l <> []) by (apply Forall_app in FR as [_ FR]; inversion FR; subst; tauto). destruct l as [|rt l]; [contradiction|].
      assert (T : (match n_rails g with Some t => t | None => [] end) = table_of 0 ls) by (rewrite SR; clear; destruct ls; reflexivity).
      unfold add_rail. rewrite T. cbn [add_railtype bind]. eexists. split; [reflexivity|]. unfold state. cbn [n_args n_info n_params n_cargo n_rails]. split; [exact SA|]. split; [exact SI|]. split; [exact SP|]. split; [exact SC|].
      rewrite map_app in FN. cbn [map hd] in FN. rewrite (dict_set_fresh bytes_eqb bytes_eqb_ok) by (rewrite table_of_keys; intros I; apply NoDup_remove_2 in FN; apply FN; now rewrite app_nil_r).
      assert (G : forall us i, table_of i us ++ [(rt, (i + len us, rt :: l))] = table_of i (us ++ [rt :: l])).
      { induction us as [|u us IHu]; intros i; cbn [table_of app hd]; [unfold len; cbn [List.length]; f_equal; f_equal; f_equal; lia|]. f_equal. rewrite <- IHu. do 3 f_equal. f_equal. unfold len. cbn [List.length]. lia. }
      rewrite table_of_len. pose proof (G ls 0) as G0. rewrite Z.add_0_l in G0. rewrite G0. destruct (ls ++ [rt :: l]) eqn:Q; [destruct ls; discriminate Q|reflexivity].
    + destruct (header_ok a _ _ _ g FA FP LP' ltac:(match goal with |- all _ ?c => destruct c as [l|] eqn:Q; [cbn; apply FC', asked_cargo_in, Q|exact I] end) FR' S) as (g' & x & y & rails & H & S' & _).
      rewrite H. cbn [bind]. exists g'. auto.
Qed.

(** The first two records depend on the arguments and parameters only. *)
Lemma info_same a ps cargo ls g : fine_args a -> Forall fine_parameter ps -> len ps <= 255 -> all fine_cargo cargo -> fine_rails ls -> state a ps cargo ls g ->
  match header g with
  | Some (_, p :: d :: _) => action14_data [(KRaw INFO, PDict (base a ++ tail14 ps))] = Some p
      /\ action8_data (mkA8 (g_format a) (g_grfid a) (text_default (g_name a)) (text_default (g_desc a))) = Some d
  | _ => True
  end.
Proof.
  intros FA FP L FC FR S. destruct (header_ok a ps cargo ls g FA FP L FC FR S) as (g' & x & y & rails & H & (_ & SI' & _) & _).
  pose proof S as (SA & SI & SP & SC & SR). rewrite H. unfold header in H. rewrite SA in H.
  assert (I : (match n_params g with [] => Some (n_info g) | qs => do n <- mk_bytes [len qs]; Some (put (put (n_info g) NPAR (PBytes n)) PARA (PDict (numbered 0 qs))) end)
     = Some (base a ++ tail14 ps)) by (apply (info_ok a ps cargo ls g L S)).
  match type of H with context [bind ?m _] => change m with (match n_params g with [] => Some (n_info g) | qs => do n <- mk_bytes [len qs]; Some (put (put (n_info g) NPAR (PBytes n)) PARA (PDict (numbered 0 qs))) end) in H end.
  rewrite I in H. cbn [bind] in H.
  destruct (action14_data _) as [p|]; [cbn [bind] in H|discriminate]. destruct (action8_data _) as [d|]; [cbn [bind] in H|discriminate].
  match type of H with bind ?m _ = _ => destruct m as [c|]; [cbn [bind] in H|discriminate] end. match type of H with bind ?m _ = _ => destruct m as [r|]; [cbn [bind] in H|discriminate] end.
  apply some_inj in H. apply pair_inj in H as [_ H]. cbn [app] in H. injection H as -> -> _. auto.
Qed.
