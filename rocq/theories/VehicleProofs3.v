From Coq Require Import ZArith List Bool String Lia.
From Verif Require Import Base BaseFacts RecordsModel ContainerProofs IdMapProofs DecodeModel VA2Model VA2Vars ParserModel LexProofs
  CallbackModel SpecCallback CallbackProofs CallbackProofs2 PropsCallback LibModel VehicleModel SpecVehicle VehicleProofs VehicleProofs2.
Import ListNotations.
Open Scope string_scope.
Open Scope list_scope.
Open Scope Z_scope.

(** ---- drawing ---- *)

Lemma reply_obj : forall f a id m objs post e v h0 h purchase sc, entry purchase m = Some e -> run f (sc_own sc) e = Some (TUser v) ->
  dict_get Z.eqb objs (v_id v) = Some h0 -> hrun f sc h0 = Some h -> reply f (a ++ RMap id m objs :: post) id purchase sc a h.
Proof. intros. exists m, objs, post, e, v, h0. auto. Qed.

Lemma shows_livery : forall f a b post ls r code id m objs e purchase sc x d,
  entry purchase m = Some e -> run f (sc_own sc) e = Some (TUser (vobj_of O_GRAPHICS)) ->
  dict_get Z.eqb objs O_GRAPHICS = Some (livery_graphics r code ls) -> valid_liveries ls = true -> ls <> [] ->
  (forall q, In q b -> plain q) -> hvalue f (if r : bool then sc_related sc else sc_own sc) (sc_other sc) code = Some x -> 0 <= x ->
  0 <= d < 8 ->
  exists l s, livery_for ls x = Some l /\ nth_error (l_sprites l) (Z.to_nat d) = Some s /\
    shows f ((a ++ livery_records ls ++ b) ++ RMap id m objs :: post) id purchase sc d s.
Proof.
  intros f a b post ls r code id m objs e purchase sc x d E R O V N B X P D.
  destruct (livery_run f sc r code ls N (fun _ => ex_intro _ x (conj X P))) as (i & l & Hr & I & L & F).
  destruct (livery_picture a ls b i l d V B I L D) as (s & S1 & S2).
  exists l, s. split; [exact (F x X P)|]. split; [exact S1|]. exists (a ++ livery_records ls ++ b), (HLayout i). split; [|exact S2].
  exact (reply_obj f _ id m objs post e _ _ _ purchase sc E R O Hr).
Qed.

Lemma shows_purchase : forall f s a post id m objs e sc d, entry true m = Some e -> run f (sc_own sc) e = Some (TUser (vobj_of O_PURCHASE)) ->
  dict_get Z.eqb objs O_PURCHASE = Some (HListed 0) -> (forall j, ~ In (RLayout j) a) ->
  shows f ((purchase_recs (Some s) ++ a) ++ RMap id m objs :: post) id true sc d s.
Proof.
  intros f s a post id m objs e sc d E R O N. exists (purchase_recs (Some s) ++ a), (HListed 0). split.
  - exact (reply_obj f _ id m objs post e _ _ _ true sc E R O eq_refl).
  - exists [RSets 1 1; RReal s], a. split; [reflexivity|]. split; [exact N|].
    exists 1, 1, [s]. split; [exists [], []; split; [reflexivity|]; split; [reflexivity|intros r []]|]. split; [lia|].
    rewrite Z.mod_1_r. reflexivity.
Qed.

Lemma livery_no_layout : forall ls j, ~ In (RLayout j) (livery_records ls).
Proof. intros ls j [H|H]; [discriminate H|]. apply in_map_iff in H as (s & E & _). discriminate E. Qed.

(** ---- it is one picture ---- *)

Definition read1 (st : option (Z * Z * list Z)) (r : vrec) : option (Z * Z * list Z) :=
  match r with
  | RSets n k => Some (n, k, [])
  | RReal s => match st with Some (n, k, l) => Some (n, k, l ++ [s]) | None => None end
  | _ => st
  end.
Definition force_of (pre : list vrec) : option (Z * Z * list Z) := fold_left read1 pre None.
Lemma force_exec : forall pre n k sp, in_force pre n k sp -> force_of pre = Some (n, k, sp).
Proof.
  intros pre n k sp (a & b & -> & _ & B). unfold force_of. rewrite fold_left_app. cbn [fold_left read1].
  rewrite fold_left_app.
  assert (E : forall l acc, fold_left read1 (map RReal l) (Some (n, k, acc)) = Some (n, k, acc ++ l)).
  { induction l as [|s l IH]; intros acc; [now rewrite app_nil_r|]. cbn [map fold_left read1]. rewrite IH, <- app_assoc. reflexivity. }
  rewrite (E sp []). cbn [app]. clear E. assert (Q : forall st, fold_left read1 b st = st).
  { induction b as [|r b IH]; intros st; [reflexivity|]. cbn [fold_left]. rewrite IH by (intros q Hq; apply B; now right).
    pose proof (B r (or_introl eq_refl)) as C. now destruct r. }
  apply Q.
Qed.
Lemma set_sprite_unique : forall pre i d s s', set_sprite pre i d s -> set_sprite pre i d s' -> s = s'.
Proof.
  intros pre i d s s' (n & k & sp & F & _ & E) (n' & k' & sp' & F' & _ & E').
  apply force_exec in F. apply force_exec in F'. rewrite F in F'. apply some_inj in F'. injection F' as -> -> ->. congruence.
Qed.
Lemma last_layout : forall a a' i i' b b', a ++ RLayout i :: b = a' ++ RLayout i' :: b' ->
  (forall j, ~ In (RLayout j) b) -> (forall j, ~ In (RLayout j) b') -> a = a'.
Proof.
  induction a as [|x a IH]; intros [|x' a'] i i' b b' E B B'; [reflexivity| | |].
  - cbn [app] in E. injection E as E0 E. exfalso. apply (B i'). rewrite E. apply in_or_app. right. now left.
  - cbn [app] in E. injection E as E0 E. exfalso. apply (B' i). rewrite <- E. apply in_or_app. right. now left.
  - cbn [app] in E. injection E as E0 E. f_equal; [exact E0|]. exact (IH _ _ _ _ _ E B B').
Qed.
Lemma picture_unique : forall pre h d s s', picture pre h d s -> picture pre h d s' -> s = s'.
Proof.
  intros pre [i|i| | |] d s s' P P'; cbn in P, P'; try contradiction.
  - exact (set_sprite_unique _ _ _ _ _ P P').
  - destruct P as (a & b & -> & B & S1), P' as (a' & b' & E & B' & S2).
    rewrite <- (last_layout _ _ _ _ _ _ E B B') in S2. exact (set_sprite_unique _ _ _ _ _ S1 S2).
Qed.
Definition map_of (id : Z) (r : vrec) : bool := match r with RMap i _ _ => i =? id | _ => false end.
Definition one_map (recs : list vrec) (id : Z) : Prop := (List.length (filter (map_of id) recs) <= 1)%nat.
Lemma map_split_unique : forall recs id pre m o post pre' m' o' post', one_map recs id ->
  recs = pre ++ RMap id m o :: post -> recs = pre' ++ RMap id m' o' :: post' -> pre = pre' /\ m = m' /\ o = o'.
Proof.
  intros recs id pre. revert recs. induction pre as [|x pre IH]; intros recs m o post pre' m' o' post' C E E'.
  - destruct pre' as [|y pre']; cbn [app] in *.
    + rewrite E in E'. injection E' as -> -> _. auto.
    + subst recs. injection E' as <- E2. exfalso. unfold one_map in C. cbn [filter map_of] in C. rewrite Z.eqb_refl, E2, filter_app in C.
      cbn [List.length filter map_of] in C. rewrite app_length, Z.eqb_refl in C. cbn [List.length] in C. lia.
  - destruct pre' as [|y pre']; cbn [app] in *.
    + subst recs. injection E' as -> E2. exfalso. unfold one_map in C. cbn [filter map_of] in C. rewrite Z.eqb_refl, filter_app in C.
      cbn [List.length filter map_of] in C. rewrite app_length, Z.eqb_refl in C. cbn [List.length] in C. lia.
    + subst recs. injection E' as <- E2.
      assert (C2 : one_map (pre ++ RMap id m o :: post) id).
      { unfold one_map in *. cbn [filter] in C. destruct (map_of id x); cbn [List.length] in C; lia. }
      destruct (IH _ m o post pre' m' o' post' C2 eq_refl E2) as (-> & -> & ->). auto.
Qed.
Lemma reply_unique : forall f recs id p sc pre h pre' h', one_map recs id -> reply f recs id p sc pre h -> reply f recs id p sc pre' h' ->
  pre = pre' /\ h = h'.
Proof.
  intros f recs id p sc pre h pre' h' C (m & o & post & e & v & h0 & E & A1 & A2 & A3 & A4) (m' & o' & post' & e' & v' & h0' & E' & B1 & B2 & B3 & B4).
  destruct (map_split_unique recs id _ _ _ _ _ _ _ _ C E E') as (-> & -> & ->). split; [reflexivity|].
  rewrite A1 in B1. apply some_inj in B1. subst e'. rewrite A2 in B2. apply some_inj in B2. injection B2 as <-.
  rewrite A3 in B3. apply some_inj in B3. subst h0'. congruence.
Qed.
Lemma shows_unique : forall f recs id p sc d s s', one_map recs id -> shows f recs id p sc d s -> shows f recs id p sc d s' -> s = s'.
Proof.
  intros f recs id p sc d s s' C (pre & h & R & P) (pre' & h' & R' & P').
  destruct (reply_unique _ _ _ _ _ _ _ _ _ C R R') as (-> & ->). exact (picture_unique _ _ _ _ _ P P').
Qed.

(** ---- the properties of the definition ---- *)

Lemma string_eqb_ok : forall a b, String.eqb a b = true <-> a = b.
Proof. apply String.eqb_eq. Qed.
Lemma flags_keep : forall f m props props' n, set_flag_props f m props = Some props' -> n <> "cb_flags" -> n <> "extra_cb_flags" ->
  dict_get String.eqb props' n = dict_get String.eqb props n.
Proof.
  intros f m props props' n H N1 N2. unfold set_flag_props in H. destruct (flag_sum f (m_callbacks m) 0) as [r|]; [|discriminate H].
  cbn [bind] in H. apply some_inj in H. subst props'. apply String.eqb_neq in N1. apply String.eqb_neq in N2.
  destruct (0 <? Z.land r 65280), (0 <? Z.land r 255); rewrite ?(gset String.eqb string_eqb_ok), ?N1, ?N2; reflexivity.
Qed.
Lemma merge_none : forall b a n, dict_get String.eqb b n = None -> dict_get String.eqb (merge a b) n = dict_get String.eqb a n.
Proof.
  unfold merge. induction b as [|[k x] b IH]; intros a n H; [reflexivity|]. cbn [dict_get] in H. cbn [fold_left fst snd].
  destruct (String.eqb n k) eqn:E; [discriminate H|]. rewrite IH by exact H. rewrite (gset String.eqb string_eqb_ok). now rewrite E.
Qed.
Lemma merge_some : forall b a n x, NoDup (map fst b) -> dict_get String.eqb b n = Some x -> dict_get String.eqb (merge a b) n = Some x.
Proof.
  unfold merge. induction b as [|[k y] b IH]; intros a n x N H; [discriminate H|]. cbn [dict_get] in H. cbn [fold_left fst snd].
  inversion N as [|? ? N1 N2]. subst. destruct (String.eqb_spec n k) as [->|D].
  - apply some_inj in H. subst y. fold (merge (dict_set String.eqb a k x) b). rewrite merge_none.
    + rewrite (gset String.eqb string_eqb_ok). now rewrite String.eqb_refl.
    + destruct (dict_get String.eqb b k) eqn:G; [|reflexivity]. exfalso. apply N1. apply (gIn String.eqb string_eqb_ok) in G.
      apply in_map_iff. now exists (k, z).
  - exact (IH _ n x N2 H).
Qed.

(** ---- the code of articulated parts ---- *)
Lemma part_code_lex : forall p, 0 <= p -> lex LNone (part_code p) =
  [TNewline; TName (nm "TEMP"); TLb; TNum 271; TRb; TAssign; TOp OP_SUB] ++ [TNum p] ++
  [TNewline; TName (nm "var"); TLp; TNum 97; TComma; TName (nm "param"); TAssign; TNum 242; TComma; TName (nm "shift"); TAssign; TNum 0;
   TComma; TName (nm "and"); TAssign; TNum 255; TRp; TNewline].
Proof.
  intros p P. unfold part_code.
  assert (A : forall rest, lex LNone (nm "
                TEMP[0x10F]=-" ++ rest) = [TNewline; TName (nm "TEMP"); TLb; TNum 271; TRb; TAssign; TOp OP_SUB] ++ lex LNone rest) by reflexivity.
  rewrite A. f_equal. destruct (nat_lx p P) as [_ L]. rewrite L by reflexivity. reflexivity.
Qed.
Lemma part_code_parse : forall p, 0 <= p ->
  parse_code (part_code p) = Some [NExpr 14 (NValue (- p)) (NValue 271); NGenP 97 0 255 None (NValue 242)].
Proof. intros p P. unfold parse_code. rewrite (part_code_lex p P). reflexivity. Qed.
Lemma part_value : forall f vars other p, 0 <= p -> hvalue f vars other (part_code p) = Some (other (- p) 242 mod 256).
Proof.
  intros f vars other p P. unfold hvalue. rewrite (part_code_parse p P). rewrite Z.shiftr_0_r. f_equal.
  change 255 with (Z.ones 8). rewrite Z.land_ones by lia. reflexivity.
Qed.
