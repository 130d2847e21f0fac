(** C05 and C06: property values and Action 0 records.

    [codes f v w b] (SpecProp.v) is the file format: a property of format [f]
    given as [v] is the bytes [b], which stand for [w]. *)
From Coq Require Import ZArith List Bool String Lia.
From Verif Require Import Base CommonModel SpecCommon RecordsModel Action2Model PropModel Action0Model SpecContainer SpecProp PropProofs
  Action0Proofs PropAccept.
Import ListNotations.
Open Scope string_scope.
Open Scope list_scope.
Open Scope Z_scope.

(** ** C05 *)
Theorem C05_written : forall f v w b, codes f v w b -> encode_value f v = Some b.
Proof. exact codes_enc. Qed.
(** Reading gives the value and leaves what follows. *)
Theorem C05_read_back : forall f v w b r, codes f v w b -> read_value f (b ++ r) = Some (w, r).
Proof. exact codes_rd. Qed.
(** Where the encoder's own checks are enough, whatever it accepts is in the format. *)
Theorem C05_accepted : forall f v b, plain f v -> encode_value f v = Some b ->
  exists w, codes f v w b /\ forall r, read_value f (b ++ r) = Some (w, r).
Proof. intros f v b P H. destruct (accepted_codes f v b P H) as [w C]. exists w. split; [assumption|]. intro r. exact (codes_rd _ _ _ _ _ C). Qed.
(** What was read is written to the same bytes and read again as the same. *)
Theorem C05_stable : forall f v w b r, codes f v w b -> encode_value f w = Some b /\ read_value f (b ++ r) = Some (w, r).
Proof.
  intros f v w b r H. split; [|exact (codes_rd _ _ _ _ _ H)]. exact (codes_enc _ _ _ _ (codes_normal _ _ _ _ H)).
Qed.
(** Different values have different bytes, even with other data behind them. *)
Theorem C05_prefix_free : forall f v v' w w' b b' r r', codes f v w b -> codes f v' w' b' -> b ++ r = b' ++ r' -> w = w' /\ r = r'.
Proof.
  intros f v v' w w' b b' r r' H H' E. pose proof (codes_rd _ _ _ _ r H) as X. pose proof (codes_rd _ _ _ _ r' H') as Y.
  rewrite E, Y in X. injection X as -> ->. split; reflexivity.
Qed.

(** Beyond [codes], the full claim "every accepted value is read back" fails.

    Registers of station sprites are written in the order of the user's
    dictionary but read in the order of the flag bits. *)
Definition sr0 := mkSR 1069 0 false false false false.
Definition layout_of (regs : list (skey * sval)) (ps : list parent) : pv := VStation [Some (mkSL (mkGr sr0 regs []) ps)].
Theorem C05_register_order_refuted : exists b w, encode_value PNewStation (layout_of [(KAdd, STemp 7); (KDodraw, SInt 9)] []) = Some b /\
  read_value PNewStation b = Some (w, []) /\ w = layout_of [(KDodraw, SInt 7); (KAdd, STemp 9)] [].
Proof. eexists. eexists. split; [reflexivity|]. split; reflexivity. Qed.
(** Register changes meant for parent sprites are accepted on the ground sprite,
    but read back as those of a child sprite. *)
Theorem C05_ground_register_refuted : exists b,
  encode_value PNewStation (layout_of [(KDeltaParentZ, SInt 9)] []) = Some b /\
  read_value PNewStation b = Some (layout_of [(KDeltaChildY, SInt 9)] [], []).
Proof. eexists. split; reflexivity. Qed.
(** Child sprites are not written. *)
Theorem C05_children_refuted : exists b,
  encode_value PNewStation (VStation [Some (mkSL (mkGr sr0 [] [mkCh sr0 1 2 []]) [])]) = Some b /\
  read_value PNewStation b = Some (layout_of [] [], []).
Proof. eexists. split; reflexivity. Qed.
(** A parent sprite at height 128 is read as a child sprite, and the rest wrongly. *)
Theorem C05_height_refuted : exists b,
  encode_value PNewStation (layout_of [] [mkPa sr0 (1, 2, 128) (4, 5, 6) [] []]) = Some b /\
  read_value PNewStation b = Some (VStation [Some (mkSL (mkGr sr0 [] [mkCh sr0 1 2 []]) [])], [4; 5; 6]).
Proof. eexists. split; reflexivity. Qed.
(** An industry layout starting with a check at x = -2 cannot be read. *)
Theorem C05_special_check_refuted : layout_init [ICheck (-2) 0] = true /\ exists b,
  encode_value PIndustryLayouts (VIndustry [[ICheck (-2) 0]]) = Some b /\ read_value PIndustryLayouts b = None.
Proof. split; [reflexivity|]. eexists. split; reflexivity. Qed.
(** Key 0 of a multi-dictionary ends it; a 0 in a string ends the string. *)
Theorem C05_key_0_refuted : exists b,
  encode_value PMultiDict (VDict [(0, MOne [65]); (1, MOne [66])]) = Some b /\
  read_value PMultiDict b = Some (VDict [], [65; 0; 1; 66; 0; 0]).
Proof. eexists. split; reflexivity. Qed.
Theorem C05_nul_refuted : exists b,
  encode_value PMultiDict (VDict [(1, MOne [66; 0; 67])]) = Some b /\
  read_value PMultiDict b = Some (VDict [(1, MOne [66]); (67, MOne [])], []).
Proof. eexists. split; reflexivity. Qed.
(** An object width above 15 runs into the height. *)
Theorem C05_size_refuted : encode_value PSizeTuple (VTuple [17; 2]) = Some [49] /\ read_value PSizeTuple [49] = Some (VTuple [1; 3], []).
Proof. split; reflexivity. Qed.
(** Formats with only one of the two directions, and formats with none. *)
Theorem C05_no_encoder_refuted : forall f v, In f [F3B; FnmW; POldStation; F4B; F12x32B; F0E; FV] -> encode_value f v = None.
Proof. intros f v H. cbn in H. repeat destruct H as [<-|H]; try reflexivity; easy. Qed.
Theorem C05_no_reader_refuted : forall f d, In f [F8B; F4B; F12x32B; F0E; FV] -> read_value f d = None.
Proof. intros f d H. cbn in H. repeat destruct H as [<-|H]; try reflexivity; easy. Qed.

(** ** C06 *)
Theorem C06_written_and_read_back : forall a c b, define_codes a c b ->
  define_init a = Some a /\ define_data a = Some b /\ exists d, b = 0 :: d /\ decode_action0 d = Some c.
Proof. exact define_ok. Qed.
(** Whatever is accepted is in the format. *)
Theorem C06_accepted : forall a b, define_init a = Some a -> define_data a = Some b -> NoDup (map fst (df_props a)) ->
  (forall name vs code f v, In (name, vs) (df_props a) -> has_prop (df_feature a) code name f -> In v vs -> plain f v) ->
  exists c, define_codes a c b.
Proof. exact define_accepted. Qed.
(** A property the feature does not have is refused, and a feature without properties. *)
Theorem C06_unknown_property : forall a name vs, In (name, vs) (df_props a) -> (forall code f, ~ has_prop (df_feature a) code name f) ->
  define_init a = None.
Proof. exact init_unknown. Qed.
Theorem C06_unknown_feature : forall a, (forall t, ~ In (df_feature a, t) ACTION0_PROPS) -> define_init a = None.
Proof.
  intros a H. unfold define_init. destruct (dict_get Z.eqb ACTION0_PROPS (df_feature a)) as [t|] eqn:T; [|reflexivity].
  exfalso. apply (H t). exact (dict_get_In Z.eqb Z.eqb_eq _ _ _ T).
Qed.
(** A record that was decompiled and recompiled has the same bytes. *)
Lemma normal_props : forall ft count ps qs b, 0 <= count -> props_code ft count ps qs b -> props_code ft count qs qs b.
Proof.
  intros ft count ps qs b K H. induction H as [|code name f vs ws b ps qs c P L V H IH]; [constructor|].
  assert (X : values_code f ws ws b) by (clear - V; induction V; constructor; [eapply codes_normal; eassumption|assumption]).
  assert (N : len ws = count).
  { assert (E : length ws = length (firstn (Z.to_nat count) vs)) by (clear - V; induction V; cbn; congruence).
    rewrite firstn_length_le in E by (unfold len in L; lia). unfold len. lia. }
  apply (pc_cons ft count code name f); [assumption|lia| |assumption].
  rewrite firstn_all2; [assumption|]. unfold len in N. lia.
Qed.
Theorem C06_stable : forall a c b, define_codes a c b -> define_data c = Some b /\ exists d, b = 0 :: d /\ decode_action0 d = Some c.
Proof.
  intros a c b H. assert (X : define_codes c c b).
  { destruct H as [ft first count ps qs b F K L N T P].
    replace (len ps) with (len qs) by (unfold len; now rewrite (qs_len _ _ _ _ _ P)).
    apply dc; try assumption.
    - unfold len in *. now rewrite (qs_len _ _ _ _ _ P).
    - now rewrite (props_names _ _ _ _ _ P).
    - exact (normal_props ft count ps qs b (proj1 K) P). }
  destruct (define_ok _ _ _ X) as (_ & D & R). split; assumption.
Qed.
(** Two industry properties have the same (misspelled) name: the first one, byte
    0x12, cannot be written; reading it and writing it back gives the other. *)
Theorem C06_shadowed_property_refuted :
  (exists t, In (10, t) ACTION0_PROPS /\ In (18, ("produciton_multipliers", FB)) t) /\
  exists a, decode_action0 [10; 1; 1; 5; 18; 3] = Some a /\ define_data a = None.
Proof. split; [eexists; split; [do 9 right; left; reflexivity|do 10 right; left; reflexivity]|]. eexists. split; reflexivity. Qed.
(** More than 255 values do not fit the record. *)
Theorem C06_count_limit : forall a, 255 < df_count a -> define_data a = None.
Proof.
  intros a H. unfold define_data. replace (pack_B (df_count a)) with (@None bytes).
  - cbn [concat_opt]. destruct (pack_B 0), (pack_B (df_feature a)), (pack_B (len (df_props a))); reflexivity.
  - symmetry. unfold pack_B. replace ((0 <=? df_count a) && (df_count a <? 256)) with false; [reflexivity|].
    symmetry. apply andb_false_iff. right. apply Z.ltb_ge. lia.
Qed.

(** ** Concrete cases *)
Example C05_examples :
  codes PDate (VDate (DVDatetime (mkDate 2000 2 29))) (VDate (DVDatetime (mkDate 2000 2 29))) (dword 730544) /\
  codes (PId true) (VObj 300) (VInt 300) [255; 44; 1] /\
  codes PMultiDict (VDict [(1, MMany [[109]; [110]]); (2, MOne [102])]) (VDict [(1, MMany [[109]; [110]]); (2, MOne [102])])
    [1; 109; 0; 1; 110; 0; 2; 102; 0; 0] /\
  codes PIndustryLayouts (VIndustry [[IOld 0 1 2; ICheck (-1) 3; INew 1 1 300]]) (VIndustry [[IOld 0 1 2; ICheck (-1) 3; INew 1 1 300]])
    ([1; 13; 0; 0; 0] ++ [0; 1; 2; 255; 3; 255; 1; 1; 254; 44; 1; 0; 128]) /\
  codes PNewStation (layout_of [(KDodraw, SInt 3); (KAdd, STemp 4)] [mkPa sr0 (1, 2, 3) (4, 5, 6) [(KDeltaParentXY, SPair 7 8)] []])
    (layout_of [(KDodraw, SInt 3); (KAdd, STemp 4)] [mkPa sr0 (1, 2, 3) (4, 5, 6) [(KDeltaParentXY, SPair 7 8)] []])
    ([255; 1; 0] ++ [65] ++ [45; 4; 0; 128; 3; 0; 3; 4] ++ [45; 4; 0; 128; 16; 0; 1; 2; 3; 4; 5; 6; 7; 8]).
Proof.
  split; [|split; [|split; [|split]]].
  - apply (c_date (mkDate 2000 2 29) 730544); [|cbn; lia|reflexivity]. repeat split; cbn; try lia.
    exists 29. split; [constructor|lia]. split; [exists 500; reflexivity|right; exists 5; reflexivity].
  - apply (c_id_long (VObj 300) 300); [now right|lia].
  - apply (c_multi [(1, MMany [[109]; [110]]); (2, MOne [102])]). split.
    + cbn. repeat constructor; cbn; intuition lia.
    + intros k m v [X|[X|[]]] V; injection X as <- <-; cbn in V; (repeat destruct V as [<-|V]; [..|easy]); (split; [lia|cbn; intuition lia]).
  - apply (c_industry [[IOld 0 1 2; ICheck (-1) 3; INew 1 1 300]] [[0; 1; 2; 255; 3; 255; 1; 1; 254; 44; 1; 0; 128]]); [cbn; lia| |cbn; lia].
    constructor; [|constructor]. exists [[0; 1; 2]; [255; 3; 255]; [1; 1; 254; 44; 1]]. split; [|split; [reflexivity|cbn; lia]].
    constructor; [|constructor; [|constructor; [|constructor]]].
    + apply (tb_old 0 1 2); unfold isbyte; lia.
    + apply (tb_check (-1) 3); lia.
    + apply (tb_new 1 1 300); unfold isbyte; lia.
  - assert (O : ref_ok sr0) by (unfold ref_ok; cbn; lia).
    refine (c_station _ [[65] ++ [45; 4; 0; 128; 3; 0; 3; 4] ++ [45; 4; 0; 128; 16; 0; 1; 2; 3; 4; 5; 6; 7; 8]] _ _); [cbn; lia|].
    constructor; [|constructor].
    refine (sb (mkGr sr0 [(KDodraw, SInt 3); (KAdd, STemp 4)] []) [45; 4; 0; 128; 3; 0; 3; 4]
      [mkPa sr0 (1, 2, 3) (4, 5, 6) [(KDeltaParentXY, SPair 7 8)] []] [[45; 4; 0; 128; 16; 0; 1; 2; 3; 4; 5; 6; 7; 8]] _ _ _); [| |cbn; lia].
    + refine (gb sr0 _ 3 [3; 4] O _ _).
      * refine (rgs_cons KDodraw (SInt 3) 0 [3] _ 2 [4] _ _ _); [constructor; unfold isbyte; lia| |exists 1; reflexivity].
        refine (rgs_cons KAdd (STemp 4) 1 [4] _ 0 [] _ _ _); [constructor; unfold isbyte; lia|constructor|exists 0; reflexivity].
      * intros k v [X|[X|[]]]; injection X as <- <-; split; discriminate.
    + constructor; [|constructor]. refine (pb sr0 _ 16 [7; 8] 1 2 3 4 5 6 O _ _ _).
      * refine (rgs_cons KDeltaParentXY (SPair 7 8) 4 [7; 8] _ 0 [] _ _ _); [constructor; unfold isbyte; lia|constructor|exists 0; reflexivity].
      * repeat (apply Forall_cons; [unfold isbyte; lia|]). apply Forall_nil.
      * lia.
Qed.
Example C06_example : define_codes
  (mkDef 0 116 2 [("max_speed", [VInt 100; VInt 200]); ("cargo_allow_refit", [VList [1; 2]; VTuple []])])
  (mkDef 0 116 2 [("max_speed", [VInt 100; VInt 200]); ("cargo_allow_refit", [VTuple [1; 2]; VTuple []])])
  [0; 0; 2; 2; 255; 116; 0; 9; 100; 0; 200; 0; 44; 2; 1; 2; 0].
Proof.
  refine (dc 0 116 2 _ _ [9; 100; 0; 200; 0; 44; 2; 1; 2; 0] _ _ _ _ _ _); [lia|lia|cbn; lia| | |].
  - cbn. repeat constructor; cbn; intuition discriminate.
  - eexists. left. reflexivity.
  - assert (P1 : has_prop 0 9 "max_speed" FW).
    { apply by_name_has. reflexivity. }
    assert (P2 : has_prop 0 44 "cargo_allow_refit" PByteList).
    { apply by_name_has. reflexivity. }
    refine (pc_cons 0 2 9 "max_speed" FW _ _ [100; 0; 200; 0] _ _ [44; 2; 1; 2; 0] P1 _ _ _); [cbn; lia| |].
    + refine (vc_cons FW _ _ [100; 0] _ _ [200; 0] _ _); [apply (c_W 100); lia|].
      refine (vc_cons FW _ _ [200; 0] _ _ [] _ _); [apply (c_W 200); lia|constructor].
    + refine (pc_cons 0 2 44 "cargo_allow_refit" PByteList _ _ [2; 1; 2; 0] [] [] [] P2 _ _ _); [cbn; lia| |constructor].
      refine (vc_cons PByteList _ _ [2; 1; 2] _ _ [0] _ _).
      * apply (c_bytes (VList [1; 2]) [1; 2]); [now right|cbn; lia|]. repeat (apply Forall_cons; [unfold isbyte; lia|]). apply Forall_nil.
      * refine (vc_cons PByteList _ _ [0] _ _ [] _ _); [|constructor].
        apply (c_bytes (VTuple []) []); [now left|cbn; lia|constructor].
Qed.

Print Assumptions C05_written.
Print Assumptions C05_read_back.
Print Assumptions C05_accepted.
Print Assumptions C05_stable.
Print Assumptions C05_prefix_free.
Print Assumptions C06_written_and_read_back.
Print Assumptions C06_accepted.
Print Assumptions C06_stable.
Print Assumptions C06_shadowed_property_refuted.
