(** C71: the Python text printed for an action reads back as that action. *)
From Coq Require Import ZArith List Bool Lia String.
From Verif Require Import Base BaseFacts CommonModel RecordsModel Action14Model DecodeModel ParserModel GenPyModel PyValue SpecPython PyTextModel PyCtorModel PrettyModel SpecPyText
  RecordsProofs RecordsProofs2 EncodableProofs PyReadProofs PyMonoProofs PyStripProofs PyCleanProofs PyTextProofs PyBackProofs PyNamesProofs PyDecodeProofs PrettyProofs.
Import ListNotations.
Open Scope string_scope.
Open Scope list_scope.
Open Scope Z_scope.

(** Every printable action is printed as text that Python reads as one
    expression and no other; evaluating it calls the constructor with arguments
    that make the action again. *)
Theorem C71_printed_reads_back : forall pp a, prints pp -> printable a ->
  exists s e, code_of pp a = Some s /\ (forall e', Reads s e' <-> e' = e) /\
    exists b, construct e = Some b /\ same_action a b.
Proof.
  intros pp a P H. destruct (text_back pp a P H) as (s & e & b & E & R & C & S). exists s, e. split; [exact E|].
  split; [intros e'; split; [intros R'; exact (Reads_fun s e' e R' R)|intros ->; exact R]|]. exists b. auto.
Qed.

(** What Python makes of the text is a function of the text: two actions
    printed alike are the same action. *)
Theorem C71_text_tells_actions_apart : forall pp a a' s, prints pp -> printable a -> printable a' ->
  code_of pp a = Some s -> code_of pp a' = Some s -> exists b, same_action a b /\ same_action a' b.
Proof.
  intros pp a a' s P H H' E E'. destruct (text_back pp a P H) as (t & e & b & T & R & C & S). destruct (text_back pp a' P H') as (t' & e' & b' & T' & R' & C' & S').
  assert (t = s) by congruence. assert (t' = s) by congruence. subst t t'. rewrite (Reads_fun s e' e R' R), C in C'. apply some_inj in C'. subst b'. exists b. auto.
Qed.

(** The action read back is equal, except a property of climates (held as the
    same number) and the blanks of a switch code of several lines. *)
Theorem C71_same_is_equal : forall a b, same_action a b ->
  (forall f i p, a <> PDefine f i p) -> (forall f i c p, a <> PDefineMultiple f i c p) ->
  (forall f r s code l d, a = PSwitch f r s code l d -> ~ In 10 code) -> b = a.
Proof.
  intros a b S D M W. destruct a, b; cbn [same_action] in S; try discriminate S; try (symmetry; exact S).
  - destruct (D feature id props eq_refl).
  - destruct (M feature first_id count props eq_refl).
  - destruct S as (-> & -> & -> & -> & -> & _ & C). rewrite (C (W _ _ _ _ _ _ eq_refl)). reflexivity.
Qed.

(** The program defines the names its statements use: modules, features and
    classes by its first lines, the class of the action by bind; the others
    come from the references and values of the action. *)
Theorem C71_names_bound : forall pp a s e x, prints pp -> printable a -> code_of pp a = Some s -> Reads s e -> In x (names e) ->
  In x PROGRAM_NAMES \/ x = class_name a \/ In x (own_names a).
Proof.
  intros pp a s e x P H C R I. pose proof (names_bound pp a s e P H C R x I) as [<-|J]; [auto|]. apply in_app_or in J as [J|J]; auto.
Qed.

(** Every record the decompiler reads from bytes is printed as a statement that
    uses no undefined name and makes the decoded action again: Action 1, 4 to
    D, 10, 11, 14 and FE. *)
Theorem C71_decompiled : forall pp t d a, prints pp -> bytesb d = true -> decode_record t d = Some a ->
  exists s e, code_of pp a = Some s /\ (forall e', Reads s e' <-> e' = e) /\ construct e = Some a /\
    forall x, In x (names e) -> In x PROGRAM_NAMES \/ x = class_name a.
Proof.
  intros pp t d a P B D. destruct (decoded_printable t d a B D) as [H O]. destruct (C71_printed_reads_back pp a P H) as (s & e & C & R & b & K & S).
  exists s, e. split; [exact C|]. split; [exact R|]. split.
  - rewrite K. f_equal. apply C71_same_is_equal; [exact S|..]; unfold decode_record in D;
    repeat match type of D with (if ?c then _ else _) = Some _ => destruct c end; try discriminate D;
    match type of D with option_map _ ?x = Some _ => destruct x; [|discriminate D]; cbn [option_map] in D; apply some_inj in D; subst a; intros; discriminate end.
  - intros x I. destruct (C71_names_bound pp a s e x P H C (proj2 (R e) eq_refl) I) as [J|[J|J]]; [auto|auto|]. rewrite O in J. destruct J.
Qed.

(** repr of every value Python can print this way reads as that value. *)
Theorem C71_repr_reads_back : forall v, wfp v = true -> forall e, Reads (repr v) e <-> e = v.
Proof.
  intros v W. assert (R : Reads (repr v) v).
  { pose proof (good_reads false _ _ (repr_good v W) (6 * List.length (repr v))%nat [] (stops_nil false) (nobar_nil false) (le_n _)) as E. rewrite app_nil_r in E.
    exists (6 * List.length (repr v))%nat. unfold read. rewrite E. reflexivity. }
  intros e. split; [intros R'; exact (Reads_fun _ e v R' R)|intros ->; exact R].
Qed.

(** The pretty printer is one, with no assumption: what it prints over
    several lines, wrapped bytes included, reads as the value; so is repr. *)
Lemma reads_inside s v : reads true s v -> Inside s v.
Proof.
  intros R n rest S N. apply R; [|unfold nobar|exact N].
  - unfold stops. destruct (ws true rest) as [|c r]; [exact I|]. unfold stopc. destruct S as [-> | [-> | [-> | [-> | ->]]]]; reflexivity.
  - destruct (ws true rest) as [|c r]; [exact I|]. destruct S as [-> | [-> | [-> | [-> | ->]]]]; exact I.
Qed.
Theorem C71_pretty_value : forall v, literal v = true -> quiet v = true -> Inside (pretty v) v /\ visible (pretty v) = true.
Proof. intros v L Q. destruct (pretty_piece v L Q true 0 0) as [R C]. split; [apply reads_inside, R|exact C]. Qed.
Theorem C71_pretty_printer : prints pretty.
Proof.
  intros v L Q K. destruct (C71_pretty_value v L Q) as [R C]. split; [exact R|]. split; [exact C|].
  destruct K as [[l ->] | [l ->]]; unfold pretty; cbn [format_value]; destruct (_ <? _); cbn [repr]; auto.
Qed.
Theorem C71_printer_exists : prints repr.
Proof.
  intros v L _ K. pose proof (literal_wfp v L) as W. split; [|split].
  - apply reads_inside, good_reads, repr_good, W.
  - exact (clean_repr v W).
  - destruct K as [[l ->] | [l ->]]; cbn [repr]; auto.
Qed.

(** Records printed with the pretty printer, read by Python, built and written
    again: the record read from the new file is the one that was read. *)
Theorem C71_decompiled_again : forall t d a, bytesb d = true -> decode_record t d = Some a -> In t [1; 4; 5; 6; 7; 9; 10; 13; 16; 17] ->
  exists s e d', code_of pretty a = Some s /\ (forall e', Reads s e' <-> e' = e) /\ construct e = Some a /\
    record_data a = Some (t :: d') /\ decode_record t d' = Some a.
Proof.
  intros t d a B D I. destruct (C71_decompiled pretty t d a C71_pretty_printer B D) as (s & e & C & R & K & _). exists s, e.
  assert (G : exists d', record_data a = Some (t :: d') /\ decode_record t d' = Some a).
  { repeat (destruct I as [<-|I]; [|]); [..|destruct I]; cbn [decode_record Z.eqb Pos.eqb] in D |- *;
      (match type of D with option_map _ ?x = Some _ => destruct x as [y|] eqn:E; [|discriminate D] end); cbn [option_map] in D; apply some_inj in D; subst a; cbn [record_data];
      try (destruct (recompile d B) as (R1 & R4 & R5 & R6 & R7 & RA & RD)).
    - destruct (R1 _ E) as (d' & X & Y). exists d'. rewrite Y. auto.
    - destruct (R4 _ E) as (d' & X & Y). exists d'. rewrite Y. auto.
    - destruct (R5 _ E) as (d' & X & Y). exists d'. rewrite Y. auto.
    - destruct (R6 _ E) as (d' & X & Y). exists d'. rewrite Y. auto.
    - destruct (R7 _ _ E) as (d' & X & Y). exists d'. rewrite Y. auto.
    - destruct (R7 _ _ E) as (d' & X & Y). exists d'. rewrite Y. auto.
    - destruct (RA _ E) as (d' & X & Y). exists d'. rewrite Y. auto.
    - destruct (RD _ E) as (d' & X & Y). exists d'. rewrite Y. auto.
    - assert (L : 0 <= a10_label y < 256).
      { unfold decode_action10 in E. destruct d as [|l d]; [discriminate|]. apply some_inj in E. subst y. cbn [a10_label]. cbn [bytesb forallb] in B. apply andb_prop in B as [B _]. unfold Base.byteb in B. lia. }
      destruct y as [l c]. destruct (proj1 (proj2 (small_encodable l)) L c) as [b X]. destruct (action10_rt _ _ X) as (d' & -> & Y). exists d'. rewrite Y. auto.
    - assert (L : 0 <= y < 65536).
      { unfold decode_action11 in E. destruct (rd_H d) as [[n r]|] eqn:H; [|discriminate]. apply some_inj in E. subst n. exact (proj1 (rd_H_range _ _ _ B H)). }
      destruct (proj1 (proj2 (proj2 (small_encodable y))) L) as [b X]. destruct (action11_rt _ _ X) as (d' & -> & Y). exists d'. rewrite Y. auto. }
  destruct G as (d' & X & Y). exists d'. auto.
Qed.

(** The constants stand for the numbers of the features. *)
Theorem C71_feature_constants : forall f x, In (f, x) FEATURE_NAMES <-> is_feature f /\ feature_py (Some f) = YName x.
Proof.
  intros f x. split.
  - intros I. unfold FEATURE_NAMES in I. cbn [map fst snd] in I. unfold is_feature.
    repeat (destruct I as [I|I]; [apply pair_inj in I as [<- <-]; split; [lia|reflexivity]|]). destruct I.
  - intros [F E]. unfold is_feature in F. cbn [feature_py] in E. injection E as <-.
    assert (C : f = 0 \/ f = 1 \/ f = 2 \/ f = 3 \/ f = 4 \/ f = 5 \/ f = 6 \/ f = 7 \/ f = 8 \/ f = 9 \/ f = 10 \/ f = 11 \/ f = 12 \/ f = 13 \/ f = 14 \/ f = 15 \/ f = 16 \/ f = 17 \/ f = 18 \/ f = 19 \/ f = 20) by lia.
    unfold FEATURE_NAMES. cbn [map fst snd].
    repeat (destruct C as [-> | C]; [cbn [nth Z.to_nat Pos.to_nat]; vm_compute; tauto|]). subst f. vm_compute. tauto.
Qed.

(** ** What is not so *)

(** Strings other than keys are dropped where the value does not fit on a line:
    two dicts that differ in a string are printed alike, so their text cannot
    read as both. *)
Theorem C71_strings_dropped_refuted : forall k x y l, 120 < len (repr (YDict ((k, YStr x) :: l))) -> 120 < len (repr (YDict ((k, YStr y) :: l))) -> x <> y ->
  pretty (YDict ((k, YStr x) :: l)) = pretty (YDict ((k, YStr y) :: l)) /\
  ~ (Inside (pretty (YDict ((k, YStr x) :: l))) (YDict ((k, YStr x) :: l)) /\ Inside (pretty (YDict ((k, YStr y) :: l))) (YDict ((k, YStr y) :: l))).
Proof.
  intros k x y l A B N.
  assert (E : pretty (YDict ((k, YStr x) :: l)) = pretty (YDict ((k, YStr y) :: l))).
  { unfold pretty. cbn [format_value]. change (120 - 0 - 0) with 120. rewrite (proj2 (Z.ltb_lt _ _) A), (proj2 (Z.ltb_lt _ _) B). reflexivity. }
  split; [exact E|]. intros [I J]. rewrite E in I. specialize (I _ [] Logic.I (le_n _)). specialize (J _ [] Logic.I (le_n _)). rewrite I in J. injection J as J. exact (N J).
Qed.

(** A condition or parameter given as bytes, which the constructors accept and
    the file format needs, raises a TypeError when printed. *)
Theorem C71_bytes_values_refuted : forall pp st var size cond b skip target op undef s1 s2,
  py_text pp (PIf (mkA7 st var size cond (IVBytes b) skip)) = None /\
  py_text pp (PCompute (mkAD target op undef s1 s2 (DVRaw b))) = None.
Proof. split; reflexivity. Qed.

(** A sprite layout prints SpriteRef, which the program does not define. *)
Definition sprite (id : Z) : py :=
  YCall (YName (txt "SpriteRef"))
    [(txt "id", YInt id); (txt "pal", YInt 0); (txt "is_global", YBool false); (txt "use_recolour", YBool false);
     (txt "always_transparent", YBool false); (txt "no_transparent", YBool false)].
Definition layout : paction :=
  PBasic (Some 7) (Some 3) (YDict [(YStr (txt "sprite"), sprite 1)])
    (YDict [(YStr (txt "sprite"), sprite 2); (YStr (txt "offset"), YTuple [YInt 0; YInt 0]); (YStr (txt "extent"), YTuple [YInt 16; YInt 16; YInt 8])]).
Theorem C71_sprite_layouts_refuted : printable layout /\
  (forall pp s e, prints pp -> code_of pp layout = Some s -> Reads s e -> In (txt "SpriteRef") (names e)) /\
  ~ In (txt "SpriteRef") PROGRAM_NAMES /\ txt "SpriteRef" <> class_name layout.
Proof.
  assert (H : printable layout) by (repeat split; cbn; unfold is_feature; try lia; reflexivity). split; [exact H|]. split; [|split; [|vm_compute; discriminate]].
  - intros pp s e P C R. destruct (names_read pp layout s e P H C R) as (st & E & ->). apply some_inj in E. subst st. vm_compute. tauto.
  - vm_compute. intros I. repeat (destruct I as [I|I]; [discriminate I|]). exact I.
Qed.

(** ** Examples *)
Definition sw : paction :=
  PSwitch (Some 0) (Some 5) true (txt "a = 1
  b = 2 + a
b") [(KOne 1, EName (txt "ref_4_1")); (KTwo 2 3, ECB 7)] (ERef None).
Example C71_switch : code_of repr sw = Some (txt "Switch(
    feature=TRAIN,
    ref_id=5,
    related_scope=True,
    code='''
        a = 1
          b = 2 + a
        b''',
    ranges={
        1: ref_4_1,
        (2, 3): CB(7),
    },
    default=Ref(None),
)").
Proof. vm_compute. reflexivity. Qed.
Example C71_switch_ok : printable sw.
Proof. cbn. unfold is_feature. repeat split; try lia; repeat constructor. Qed.
Definition define : paction :=
  PDefine 0 12 [(txt "climates_available", VClimate 5); (txt "introduction_date", VRepr (YCall (YAttr (YName (txt "datetime")) (txt "date")) [([], YInt 90); ([], YInt 1); ([], YInt 2)]));
                (txt "max_speed", VRepr (YInt (-1))); (txt "cb", VRepr (YBytes [39; 0; 34; 92]))].
Example C71_define : code_of repr define = Some (txt "Define(
    feature=TRAIN,
    id=12,
    props={
        'climates_available': grf.TEMPERATE | grf.TROPICAL,
        'introduction_date': datetime.date(90, 1, 2),
        'max_speed': -1,
        'cb': b'\'\x00""\\',
    }
)").
Proof. vm_compute. reflexivity. Qed.
Example C71_define_ok : printable define.
Proof. cbn. unfold is_feature. repeat split; try lia; repeat constructor; cbn; intuition discriminate. Qed.
Example C71_compute : code_of repr (PCompute (mkAD 1 2 true 255 4 (DVNum 1034))) = Some (txt "ComputeParameters(
    target=1,
    operation=2,
    if_undefined=True,
    source1=255,
    source2=4,
    value=1034,  # \n\x04\x00\x00
)").
Proof. vm_compute. reflexivity. Qed.
(** Over several lines, a long string in two pieces. *)
Definition wide : paction := PStrings (mkA4 4 127 53248 true [repeat 65 130; repeat 66 60; repeat 67 50]).
Example C71_wide : code_of pretty wide = Some (txt "DefineStrings(
    feature=STATION,
    lang=127,
    offset=0xd000,
    is_generic_offset=True,
    strings=[   b'" ++ repeat 65 112 ++ txt "'
              b'" ++ repeat 65 18 ++ txt "',
              b'" ++ repeat 66 60 ++ txt "',
              b'" ++ repeat 67 50 ++ txt "']
)") /\ printable wide.
Proof. split; [vm_compute; reflexivity|]. cbn. unfold is_feature. repeat split; try lia; repeat constructor. Qed.
Example C71_dropped : 120 < len (repr (YDict [(YStr (txt "a"), YStr (txt "b")); (YStr (txt "c"), YBytes (repeat 65 110))])).
Proof. vm_compute. reflexivity. Qed.
Example C71_decoded : exists a, decode_record 13 [1; 130; 255; 4; 10; 4; 0; 0] = Some a /\ a = PCompute (mkAD 1 2 true 255 4 (DVNum 1034)).
Proof. eexists. split; reflexivity. Qed.

Print Assumptions C71_printed_reads_back.
Print Assumptions C71_text_tells_actions_apart.
Print Assumptions C71_same_is_equal.
Print Assumptions C71_names_bound.
Print Assumptions C71_decompiled.
Print Assumptions C71_repr_reads_back.
Print Assumptions C71_pretty_value.
Print Assumptions C71_pretty_printer.
Print Assumptions C71_printer_exists.
Print Assumptions C71_decompiled_again.
Print Assumptions C71_feature_constants.
Print Assumptions C71_strings_dropped_refuted.
Print Assumptions C71_bytes_values_refuted.
Print Assumptions C71_sprite_layouts_refuted.
