From Coq Require Import ZArith List Bool String Lia.
From Verif Require Import Base BaseFacts RecordsModel ContainerProofs DecodeModel VA2Model VA2Vars ParserModel
  CallbackModel SpecCallback CallbackProofs CallbackProofs2 PropsCallback LibModel VehicleModel SpecVehicle.
Import ListNotations.
Open Scope string_scope.
Open Scope list_scope.
Open Scope Z_scope.

Lemma hrun_switch : forall f sc r c l d x, hvalue f (if r : bool then sc_related sc else sc_own sc) (sc_other sc) c = Some x ->
  hrun f sc (HSwitch r c l d) = match dict_get Z.eqb l x with Some t => hrun f sc t | None => hrun f sc d end.
Proof.
  intros f sc r c l d x H. cbn [hrun]. rewrite H. clear H. induction l as [|[k t] l IH]; [reflexivity|].
  cbn [dict_get]. rewrite Z.eqb_sym. destruct (x =? k); [reflexivity|exact IH].
Qed.

Lemma enum_get : forall A (l : list A) i x, dict_get Z.eqb (enum_from i l) x = if i <=? x then nth_error l (Z.to_nat (x - i)) else None.
Proof.
  intros A l. induction l as [|a l IH]; intros i x.
  - cbn. destruct (i <=? x); [|reflexivity]. now destruct (Z.to_nat (x - i)).
  - cbn [enum_from dict_get]. rewrite IH. destruct (Z.eqb_spec x i) as [->|N].
    + rewrite Z.leb_refl, Z.sub_diag. reflexivity.
    + destruct (Z.leb_spec i x) as [L|L].
      * destruct (Z.leb_spec (i + 1) x); [|lia]. replace (Z.to_nat (x - i)) with (S (Z.to_nat (x - (i + 1)))) by lia. reflexivity.
      * destruct (Z.leb_spec (i + 1) x); [lia|reflexivity].
Qed.
Lemma enum_nth : forall A (l : list A) i n, nth_error (enum_from i l) n = option_map (fun a => (i + Z.of_nat n, a)) (nth_error l n).
Proof.
  intros A l. induction l as [|a l IH]; intros i n; [now destruct n|]. destruct n; cbn [enum_from nth_error option_map].
  - now rewrite Z.add_0_r.
  - rewrite IH. destruct (nth_error l n); [|reflexivity]. cbn. do 2 f_equal. lia.
Qed.
Lemma enum_map_get : forall A B (g : A -> B) (l : list A) i x,
  dict_get Z.eqb (map (fun e => (fst e, g (snd e))) (enum_from i l)) x = option_map g (dict_get Z.eqb (enum_from i l) x).
Proof.
  intros A B g l. induction l as [|a l IH]; intros i x; [reflexivity|]. cbn [enum_from map dict_get fst snd].
  destruct (x =? i); [reflexivity|apply IH].
Qed.

Lemma len_cons : forall A (a : A) l, len (a :: l) = len l + 1.
Proof. intros. unfold len. cbn [List.length]. lia. Qed.
Lemma nth_len : forall A (l : list A) n, nth_error l n <> None <-> (n < List.length l)%nat.
Proof. intros. apply nth_error_Some. Qed.

(** The livery switch. *)
Lemma livery_run : forall f sc r c ls, ls <> [] ->
  (1 < len ls -> exists x, hvalue f (if r : bool then sc_related sc else sc_own sc) (sc_other sc) c = Some x /\ 0 <= x) ->
  exists i l, hrun f sc (livery_graphics r c ls) = Some (HLayout i) /\ 0 <= i < len ls /\ nth_error ls (Z.to_nat i) = Some l /\
    forall x, hvalue f (if r : bool then sc_related sc else sc_own sc) (sc_other sc) c = Some x -> 0 <= x -> livery_for ls x = Some l.
Proof.
  intros f sc r c ls N H. unfold livery_graphics. destruct (1 <? len ls) eqn:E.
  - apply Z.ltb_lt in E. destruct (H E) as (x & V & P). clear H. rewrite (hrun_switch _ _ _ _ _ _ _ V).
    unfold enum at 1. rewrite enum_get. destruct (Z.leb_spec 0 x) as [_|?]; [|lia]. rewrite Z.sub_0_r, nth_error_map.
    unfold enum. rewrite enum_nth, !Z.add_0_l. destruct (nth_error ls (Z.to_nat x)) as [l|] eqn:L.
    + cbn [option_map fst hrun]. exists x, l. rewrite Z2Nat.id by exact P. split; [reflexivity|].
      assert (L2 : (Z.to_nat x < List.length ls)%nat) by (apply nth_len; congruence). unfold len. split; [lia|]. split; [exact L|].
      intros y V' P'. replace y with x by congruence. unfold livery_for. rewrite L. reflexivity.
    + cbn [option_map hrun]. destruct ls as [|l ls]; [contradiction|]. exists 0, l. split; [reflexivity|]. split; [lia|]. split; [reflexivity|].
      intros y V' P'. replace y with x by congruence. unfold livery_for. rewrite L. reflexivity.
  - apply Z.ltb_ge in E. destruct ls as [|l ls]; [contradiction|]. rewrite len_cons in *. assert (ls = []) as ->.
    { destruct ls as [|? ?]; [reflexivity|rewrite len_cons in E; unfold len in E; lia]. }
    exists 0, l. split; [reflexivity|]. split; [unfold len; cbn; lia|]. split; [reflexivity|]. intros x _ P. unfold livery_for.
    destruct (Z.to_nat x) as [|k]; [reflexivity|]. cbn [nth_error]. now destruct k.
Qed.

(** Sprite [d] of set [i]. *)
Lemma flat_nth : forall ls i d l, forallb (fun l => len (l_sprites l) =? 8) ls = true -> (d < 8)%nat ->
  nth_error ls i = Some l -> nth_error (flat_map l_sprites ls) (i * 8 + d) = nth_error (l_sprites l) d.
Proof.
  intros ls. induction ls as [|l0 ls IH]; intros i d l V D H; [now destruct i|].
  cbn [forallb] in V. apply andb_true_iff in V as [V0 V]. apply Z.eqb_eq in V0. unfold len in V0. cbn [flat_map].
  destruct i as [|i].
  - cbn in H. apply some_inj in H as ->. cbn [Nat.mul Nat.add]. rewrite nth_error_app1 by lia. reflexivity.
  - cbn [nth_error] in H. rewrite nth_error_app2 by lia.
    replace (S i * 8 + d - List.length (l_sprites l0))%nat with (i * 8 + d)%nat by lia. exact (IH i d l V D H).
Qed.
Lemma flat_len : forall ls, forallb (fun l => len (l_sprites l) =? 8) ls = true -> len (flat_map l_sprites ls) = len ls * 8.
Proof.
  induction ls as [|l ls IH]; intros V; [reflexivity|]. cbn [forallb] in V. apply andb_true_iff in V as [V0 V].
  apply Z.eqb_eq in V0. cbn [flat_map]. unfold len in *. rewrite app_length, Nat2Z.inj_add, (IH V). cbn [List.length]. lia.
Qed.

Definition plain (r : vrec) : Prop := match r with RSets _ _ | RReal _ => False | _ => True end.
Lemma livery_force : forall a ls b, valid_liveries ls = true -> (forall r, In r b -> plain r) ->
  in_force (a ++ livery_records ls ++ b) (len ls) 8 (flat_map l_sprites ls).
Proof.
  intros a ls b V B. exists a, b. split; [reflexivity|]. split; [exact (flat_len ls V)|exact B].
Qed.
Lemma livery_picture : forall a ls b i l d, valid_liveries ls = true -> (forall r, In r b -> plain r) ->
  0 <= i < len ls -> nth_error ls (Z.to_nat i) = Some l -> 0 <= d < 8 ->
  exists s, nth_error (l_sprites l) (Z.to_nat d) = Some s /\ picture (a ++ livery_records ls ++ b) (HLayout i) d s.
Proof.
  intros a ls b i l d V B I L D.
  assert (Ll : List.length (l_sprites l) = 8%nat).
  { pose proof (proj1 (forallb_forall _ _) V l (nth_error_In _ _ L)) as E. apply Z.eqb_eq in E. unfold len in E. lia. }
  destruct (nth_error (l_sprites l) (Z.to_nat d)) as [s|] eqn:S1; [|apply nth_error_None in S1; lia].
  exists s. split; [reflexivity|]. exists (len ls), 8, (flat_map l_sprites ls).
  split; [exact (livery_force a ls b V B)|]. split; [exact I|]. rewrite Z.mod_small by exact D.
  replace (Z.to_nat (i * 8 + d)) with (Z.to_nat i * 8 + Z.to_nat d)%nat by lia.
  rewrite (flat_nth ls (Z.to_nat i) (Z.to_nat d) l V ltac:(lia) L). exact S1.
Qed.

(** ---- what the steps do ---- *)

Definition ev_name (e : event) : string :=
  match e with EAssign n _ | EField n _ _ => n | EPropAssign n _ | EPropField n _ _ => n end.
Definition on_cb (e : event) : bool := match e with EAssign _ _ | EField _ _ _ => true | _ => false end.
Lemma wanted_skip : forall c n l h, (forall e, In e l -> ev_name e <> n) -> wanted c n (l ++ h) = wanted c n h.
Proof.
  intros c n l h. induction l as [|e l IH]; intros H; [reflexivity|].
  assert (N : ev_name e <> n) by (apply H; now left).
  assert (IH' : wanted c n (l ++ h) = wanted c n h) by (apply IH; intros; apply H; now right).
  cbn [app wanted]. destruct e as [m a|m p v|m a|m p v]; try exact IH';
    cbn [ev_name] in N; destruct (String.eqb_spec m n); [contradiction|exact IH'|contradiction|exact IH'].
Qed.
Lemma wanted_prop_skip : forall c n l h, (forall e, In e l -> on_cb e = true) -> wanted_prop c n (l ++ h) = wanted_prop c n h.
Proof.
  intros c n l h. induction l as [|e l IH]; intros H; [reflexivity|].
  assert (N : on_cb e = true) by (apply H; now left).
  cbn [app wanted_prop]. destruct e; try discriminate N; apply IH; intros; apply H; now right.
Qed.

Lemma apply_events_app : forall f a m b, apply_events f m (a ++ b) = (do m' <- apply_events f m a; apply_events f m' b).
Proof.
  intros f a. induction a as [|e a IH]; intros m b; [reflexivity|]. cbn [app apply_events].
  destruct (apply_event f m e) as [m'|]; [|reflexivity]. cbn [bind]. apply IH.
Qed.

(** The statements so far, latest first. *)
Definition hist (f : Z) (st : vst) (h : list event) : Prop := apply_events f start (rev h) = Some (s_man st).
Lemma hist_put : forall f ev o x st st' h, hist f st h -> put f ev o x st = Some st' -> hist f st' (ev :: h).
Proof.
  intros f ev o x st st' h H P. unfold hist in *. cbn [rev]. rewrite apply_events_app, H. cbn [bind apply_events].
  unfold put in P. destruct (apply_event f (s_man st) ev) as [m|]; [|discriminate P]. cbn [bind] in P. apply some_inj in P. subst st'. reflexivity.
Qed.
Lemma hist_emit : forall f l st h, hist f st h -> hist f (emit l st) h.
Proof. intros f l st h H. exact H. Qed.
Lemma put_objs : forall f ev o x st st' k, put f ev o x st = Some st' ->
  dict_get Z.eqb (s_objs st') k = if k =? o then Some x else dict_get Z.eqb (s_objs st) k.
Proof.
  intros f ev o x st st' k P. unfold put in P. destruct (apply_event f (s_man st) ev) as [m|]; [|discriminate P].
  cbn [bind] in P. apply some_inj in P. subst st'. cbn [s_objs]. rewrite (dget_set (s_objs st) o x k). reflexivity.
Qed.
Lemma put_recs : forall f ev o x st st', put f ev o x st = Some st' -> s_recs st' = s_recs st.
Proof.
  intros f ev o x st st' P. unfold put in P. destruct (apply_event f (s_man st) ev) as [m|]; [|discriminate P].
  cbn [bind] in P. apply some_inj in P. now subst st'.
Qed.

(** A step that adds statements about callback [n] only, object [o] only and
    the records [r]. *)
Definition step (f : Z) (n : string) (o : Z) (r : list vrec) (st st' : vst) : Prop :=
  (forall h, hist f st h -> exists l, hist f st' (l ++ h) /\ forall e, In e l -> ev_name e = n /\ on_cb e = true) /\
  (forall k, k <> o -> dict_get Z.eqb (s_objs st') k = dict_get Z.eqb (s_objs st) k) /\
  s_recs st' = s_recs st ++ r.
Lemma step_none : forall f n o st, step f n o [] st st.
Proof.
  intros. split; [|split].
  - intros h H. exists []. split; [exact H|]. intros e [].
  - reflexivity.
  - now rewrite app_nil_r.
Qed.
Lemma step_put : forall f ev o x l st st', on_cb ev = true -> put f ev o x (emit l st) = Some st' -> step f (ev_name ev) o l st st'.
Proof.
  intros f ev o x l st st' C P. split; [|split].
  - intros h H. exists [ev]. split; [exact (hist_put _ _ _ _ _ _ _ (hist_emit f l st h H) P)|]. intros e [<-|[]]. now split.
  - intros k K. rewrite (put_objs _ _ _ _ _ _ k P). destruct (Z.eqb_spec k o); [contradiction|reflexivity].
  - rewrite (put_recs _ _ _ _ _ _ P). reflexivity.
Qed.
Lemma step_put0 : forall f ev o x st st', on_cb ev = true -> put f ev o x st = Some st' -> step f (ev_name ev) o [] st st'.
Proof.
  intros f ev o x st st' C P. apply (step_put f ev o x [] st st' C). unfold emit. rewrite app_nil_r. destruct st. exact P.
Qed.

Definition purchase_recs (p : option Z) : list vrec := match p with Some s => [RSets 1 1; RReal s; RLayout 0] | None => [] end.
Lemma text_step : forall f text t st st', set_text f text t st = Some st' -> step f "additional_text" O_TEXT [] st st'.
Proof.
  intros f text [s|] st st' H; cbn [set_text] in H.
  - exact (step_put0 f (EAssign "additional_text" _) _ _ st st' eq_refl H).
  - apply some_inj in H. subst st'. apply step_none.
Qed.
Lemma names_step : forall f text ls st st', set_names f text ls st = Some st' -> step f "cargo_subtype_text" O_NAMES [] st st'.
Proof.
  intros f text ls st st' H. unfold set_names in H. destruct (1 <? len ls).
  - exact (step_put0 f (EAssign "cargo_subtype_text" _) _ _ st st' eq_refl H).
  - apply some_inj in H. subst st'. apply step_none.
Qed.
Lemma speed_step : forall p st st', set_speed p st = Some st' -> step 1 "change_properties" O_SPEED [] st st'.
Proof.
  intros p st st' H. unfold set_speed in H. destruct (1024 <=? p).
  - destruct (graphics_obj st) as [d|]; [|discriminate H]. cbn [bind] in H. exact (step_put0 1 (EAssign "change_properties" _) _ _ st st' eq_refl H).
  - apply some_inj in H. subst st'. apply step_none.
Qed.
Lemma sounds_step : forall l st st', set_sounds l st = Some st' -> step 0 "sound_effect" O_SOUND [] st st'.
Proof.
  intros [|e l] st st' H; unfold set_sounds in H.
  - apply some_inj in H. subst st'. apply step_none.
  - destruct (graphics_obj st) as [d|]; [|discriminate H]. cbn [bind] in H. exact (step_put0 0 (EAssign "sound_effect" _) _ _ st st' eq_refl H).
Qed.
Lemma parts_step : forall rid l st st', set_parts rid l st = Some st' -> step 0 "articulated_part" O_PARTS [] st st'.
Proof.
  intros rid [|e l] st st' H; unfold set_parts in H.
  - apply some_inj in H. subst st'. apply step_none.
  - exact (step_put0 0 (EAssign "articulated_part" _) _ _ st st' eq_refl H).
Qed.

(** The graphics of a vehicle with [g] as default graphics at the end. *)
Lemma vehicle_in : forall f, is_vehicle_feature f = true -> In f graphics_features /\ In f purchase_features /\ ~ In f [16; 18; 19].
Proof.
  intros f H. unfold is_vehicle_feature in H. apply andb_true_iff in H as [A B]. apply Z.leb_le in A. apply Z.leb_le in B.
  assert (f = 0 \/ f = 1 \/ f = 2 \/ f = 3) as K by lia.
  repeat split; unfold graphics_features, purchase_features; cbn [In]; lia.
Qed.
Lemma no_zero : forall f n c, is_vehicle_feature f = true -> ~ callback_of f n 0 c.
Proof. intros f n c H K. exact (callback_nonzero f n 0 c (proj2 (proj2 (vehicle_in f H))) K eq_refl). Qed.

Lemma normal_graphics : forall f st h m v info sc, is_vehicle_feature f = true -> hist f st h -> make_switch f (s_man st) = Some m ->
  fst (wanted CGraphics "graphics" h) = Some v -> asks 0 info sc ->
  exists e, entry false m = Some e /\ run f (sc_own sc) e = Some (TUser v).
Proof.
  intros f st h m v info sc V H M W A. destruct (vehicle_in f V) as (I1 & _ & _).
  destruct (C47_normal f (rev h) (s_man st) m I1 H M) as (_ & g & G & K). rewrite rev_involutive in G. rewrite W in G.
  apply some_inj in G. subst g. destruct A as (A1 & A2 & A3 & A4).
  destruct (K 0 info ltac:(lia) A3) as (e & E & R).
  - intros n c C. exfalso. exact (no_zero f n c V C).
  - discriminate.
  - exists e. split; [exact E|]. apply R. repeat split; assumption || lia.
Qed.
Lemma purchase_graphics : forall f st h m v info sc, is_vehicle_feature f = true -> hist f st h -> make_switch f (s_man st) = Some m ->
  match snd (wanted CGraphics "graphics" h) with Some v => Some v | None => fst (wanted CGraphics "graphics" h) end = Some v ->
  asks 0 info sc -> exists e, entry true m = Some e /\ run f (sc_own sc) e = Some (TUser v).
Proof.
  intros f st h m v info sc V H M W A. destruct (vehicle_in f V) as (_ & I1 & _).
  destruct (C47_purchase f (rev h) (s_man st) m I1 H M) as (_ & _ & g & G & K & _). rewrite rev_involutive in G. rewrite W in G.
  apply some_inj in G. subst g. destruct A as (A1 & A2 & A3 & A4).
  destruct (K 0 info ltac:(lia) ltac:(lia) A3) as (e & E & R).
  - intros n c C. exfalso. exact (no_zero f n c V C).
  - exists e. split; [exact E|]. apply R. repeat split; assumption || lia.
Qed.
(** A callback the library set. *)
Lemma normal_callback : forall f st h m n cb c v info sc, is_vehicle_feature f = true -> hist f st h -> make_switch f (s_man st) = Some m ->
  callback_of f n cb c -> fst (wanted c n h) = Some v -> asks cb info sc ->
  exists e, entry false m = Some e /\ run f (sc_own sc) e = Some (TUser v).
Proof.
  intros f st h m n cb c v info sc V H M C W A. destruct (vehicle_in f V) as (I1 & _ & _).
  destruct (C47_normal f (rev h) (s_man st) m I1 H M) as (K & _). rewrite rev_involutive in K.
  destruct (K n cb c v info C W) as (e & E & R); [destruct A as (_ & _ & A & _); exact A|].
  exists e. split; [exact E|]. apply R. exact A.
Qed.
Lemma purchase_callback : forall f st h m n cb c v info sc, is_vehicle_feature f = true -> hist f st h -> make_switch f (s_man st) = Some m ->
  callback_of f n cb c -> snd (wanted c n h) = Some v -> asks cb info sc ->
  exists e, entry true m = Some e /\ run f (sc_own sc) e = Some (TUser v).
Proof.
  intros f st h m n cb c v info sc V H M C W A. destruct (vehicle_in f V) as (_ & I1 & _).
  destruct (C47_purchase f (rev h) (s_man st) m I1 H M) as (K & _). rewrite rev_involutive in K.
  destruct (K n cb c v info C W) as (e & E & R); [destruct A as (_ & _ & A & _); exact A|].
  exists e. split; [exact E|]. apply R. exact A.
Qed.
(** The default is always there. *)
Lemma vehicle_default : forall f st h m, is_vehicle_feature f = true -> hist f st h -> make_switch f (s_man st) = Some m -> fst m <> None.
Proof.
  intros f st h m V H M. destruct (vehicle_in f V) as (I1 & _ & _).
  destruct (C47_normal f (rev h) (s_man st) m I1 H M) as (_ & g & G & K).
  destruct (K 0 0 ltac:(lia) ltac:(lia)) as (e & E & R).
  - intros n c C. exfalso. exact (no_zero f n c V C).
  - discriminate.
  - cbn [entry] in E. congruence.
Qed.
Lemma make_map_ok : forall f id st h st', is_vehicle_feature f = true -> hist f st h -> make_map f id st = Some st' ->
  exists m, make_switch f (s_man st) = Some m /\ s_recs st' = s_recs st ++ [RMap id m (s_objs st)].
Proof.
  intros f id st h st' V H M. unfold make_map in M. destruct (make_switch f (s_man st)) as [m|] eqn:E; [|discriminate M].
  cbn [bind] in M. pose proof (vehicle_default f st h m V H E) as D. destruct (fst m) as [x|]; [|contradiction].
  apply some_inj in M. subst st'. exists m. split; reflexivity.
Qed.

(** Code. *)
Lemma hvalue_var : forall f vars other s, parse_code (nm s) = Some [NVar (nm s)] -> hvalue f vars other (nm s) = code_value f vars s.
Proof. intros f vars other s H. unfold hvalue, code_value. rewrite H. reflexivity. Qed.
Lemma vehicle_cases : forall f, is_vehicle_feature f = true -> f = 0 \/ f = 1 \/ f = 2 \/ f = 3.
Proof.
  intros f H. unfold is_vehicle_feature in H. apply andb_true_iff in H as [A B]. apply Z.leb_le in A. apply Z.leb_le in B. lia.
Qed.
Lemma subtype_code : forall f vars, is_vehicle_feature f = true -> code_value f vars "cargo_subtype" = Some (Z.shiftr (vars 242) 0 mod 2 ^ 8).
Proof. intros f vars H. destruct (vehicle_cases f H) as [->|[->|[->| ->]]]; reflexivity. Qed.
Lemma subtype_value : forall f vars other, is_vehicle_feature f = true -> hvalue f vars other (nm "cargo_subtype") = Some (subtype_of vars).
Proof.
  intros f vars other H. rewrite (hvalue_var f vars other "cargo_subtype") by (vm_compute; reflexivity).
  rewrite (subtype_code f vars H), Z.shiftr_0_r. reflexivity.
Qed.
Lemma info_value : forall f vars other, is_vehicle_feature f = true -> hvalue f vars other (nm "extra_callback_info1_byte") = Some (vars 16 mod 256).
Proof.
  intros f vars other H. rewrite (hvalue_var f vars other "extra_callback_info1_byte") by (vm_compute; reflexivity).
  destruct (vehicle_in f H) as (I & _). destruct (graphics_feature_facts f I) as (_ & J & _).
  rewrite (proj2 (code_values f vars J)), Z.shiftr_0_r. reflexivity.
Qed.
