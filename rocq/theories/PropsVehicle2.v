(** C64, continued: trains. *)
From Coq Require Import ZArith List Bool String Lia.
From Verif Require Import Base BaseFacts RecordsModel ContainerProofs IdMapProofs DecodeModel VA2Model VA2Vars ParserModel CallbackModel SpecCallback
  CallbackProofs CallbackProofs2 PropsCallback LibModel VehicleModel SpecVehicle VehicleProofs VehicleProofs2 VehicleProofs3 VehicleProofs4 PropsVehicle.
Import ListNotations.
Open Scope string_scope.
Open Scope list_scope.
Open Scope Z_scope.

(** The train and its parts have different ids in the game. *)
Definition distinct (rid : pid -> Z) (t : train_v) : Prop := NoDup (map rid (t_id t :: map p_id (t_parts t))).
(** [t], on whose callbacks the program has done [evs], wrote [recs]. *)
Definition train_built (rid : pid -> Z) (text : string -> Z) (evs : list event) (t : train_v) (recs : list vrec) : Prop :=
  apply_events 0 start evs = Some (t_manager t) /\ train_sprites rid text t = Some recs.

Definition maps (id : Z) (l : list vrec) : nat := List.length (filter (map_of id) l).
Lemma maps_app : forall id a b, maps id (a ++ b) = (maps id a + maps id b)%nat.
Proof. intros. unfold maps. now rewrite filter_app, app_length. Qed.
Lemma graphics_recs : forall f ls pos st st', make_graphics f ls pos st = Some st' -> s_recs st' = s_recs st ++ ls_recs ls.
Proof.
  intros f [|l ls] pos st st' H; cbn [make_graphics] in H.
  - apply some_inj in H. subst st'. now rewrite app_nil_r.
  - rewrite (put_recs _ _ _ _ _ _ H). reflexivity.
Qed.
Lemma part_maps : forall rid ec pos p l id, part_records rid ec pos p = Some l -> (maps id l <= if (rid (p_id p) =? id)%Z then 1 else 0)%nat.
Proof.
  intros rid ec pos p l id H. unfold part_records in H.
  destruct (make_graphics 0 (p_liveries p) pos (mk_vst [] [] (p_manager p))) as [s1|] eqn:E1; [|discriminate H]. cbn [bind] in H.
  destruct (set_flag_props 0 (s_man s1) (p_props p)) as [props|]; [|discriminate H]. cbn [bind] in H.
  unfold make_map in H. destruct (make_switch 0 _) as [m|]; [|discriminate H]. cbn [bind] in H. apply graphics_recs in E1. cbn [s_recs app] in E1.
  destruct (fst m); apply some_inj in H; subst l; cbn [emit s_recs]; rewrite E1; unfold maps; rewrite ?filter_app, no_maps_ls; cbn [filter map_of app].
  - destruct (rid (p_id p) =? id); cbn; lia.
  - cbn. lia.
Qed.
Lemma parts_maps : forall rid ec ps pos r id, parts_records rid ec pos ps = Some r -> NoDup (map rid (map p_id ps)) ->
  (maps id r <= if existsb (fun p => (rid (p_id p) =? id)%Z) ps then 1 else 0)%nat.
Proof.
  intros rid ec ps. induction ps as [|p ps IH]; intros pos r id H N; cbn [parts_records] in H.
  - apply some_inj in H. subst r. cbn. lia.
  - destruct (part_records rid ec pos p) as [l|] eqn:E; [|discriminate H]. cbn [bind] in H.
    destruct (parts_records rid ec (pos + 1) ps) as [r'|] eqn:E'; [|discriminate H]. cbn [bind] in H. apply some_inj in H. subst r.
    cbn [map] in N. inversion N as [|? ? N1 N2]. subst. pose proof (part_maps _ _ _ _ _ id E) as A. pose proof (IH _ _ id E' N2) as B.
    rewrite maps_app. cbn [existsb]. destruct (Z.eqb_spec (rid (p_id p)) id) as [Q|Q]; cbn [orb]; [|lia].
    destruct (existsb (fun p0 => rid (p_id p0) =? id) ps) eqn:X; [|lia]. exfalso. apply N1. apply existsb_exists in X as (q & I & Y).
    apply Z.eqb_eq in Y. rewrite Q, <- Y. apply in_map, in_map, I.
Qed.
Lemma train_one : forall rid text evs t recs id, train_built rid text evs t recs -> distinct rid t -> one_map recs id.
Proof.
  intros rid text evs t recs id (U & H) D. rewrite <- (rev_involutive evs) in U.
  destruct (train_inv _ _ _ _ _ U H) as (p & st & h & m & props & ec & r & _ & _ & _ & _ & _ & PR & -> & _).
  unfold distinct in D. cbn [map] in D. inversion D as [|? ? N1 N2]. subst. pose proof (parts_maps _ _ _ _ _ id PR N2) as B.
  change (maps id ((purchase_recs p ++ ls_recs (t_head t) ++ [RName (rid (t_id t)); RDefine (rid (t_id t)) (merge (train_own t) props)])
          ++ [RMap (rid (t_id t)) m (s_objs st)] ++ r) <= 1)%nat.
  rewrite !maps_app. unfold maps at 1 2 3 4. rewrite no_maps_purchase, no_maps_ls. cbn [filter map_of List.length].
  destruct (Z.eqb_spec (rid (t_id t)) id) as [Q|Q]; cbn [List.length]; [|destruct (existsb _ _); lia].
  destruct (existsb (fun p0 => rid (p_id p0) =? id) (t_parts t)) eqn:X; [|lia]. exfalso. apply N1. apply existsb_exists in X as (q & I & Y).
  apply Z.eqb_eq in Y. rewrite Q, <- Y. apply in_map, in_map, I.
Qed.

(** The head shows its own liveries. *)
Theorem C64_train_livery : forall rid text evs t recs sc info dir, train_built rid text evs t recs -> distinct rid t ->
  t_head t <> [] -> valid_liveries (t_head t) = true -> asks 0 info sc -> 0 <= dir < 8 ->
  exists l s, livery_for (t_head t) (subtype_of (sc_own sc)) = Some l /\ nth_error (l_sprites l) (Z.to_nat dir) = Some s /\
    shows 0 recs (rid (t_id t)) false sc dir s /\ forall s', shows 0 recs (rid (t_id t)) false sc dir s' -> s' = s.
Proof.
  intros rid text evs t recs sc info dir B DI N L A D. pose proof (train_one _ _ _ _ _ (rid (t_id t)) B DI) as ONE.
  destruct B as (U & H0). rewrite <- (rev_involutive evs) in U.
  destruct (train_inv _ _ _ _ _ U H0) as (p & st & h & m & props & ec & r & _ & H & M & _ & _ & _ & E & S & _).
  rewrite (ls_recs_ok _ N) in E.
  assert (GR : gr_of (nm "cargo_subtype") (t_head t) = Some (livery_graphics false (nm "cargo_subtype") (t_head t))) by (unfold gr_of; destruct (t_head t); [contradiction|reflexivity]).
  assert (W : fst (wanted CGraphics "graphics" h) = Some (vobj_of O_GRAPHICS)) by (rewrite (sm_gfx _ _ _ _ _ _ _ _ _ S), GR; reflexivity).
  pose proof (sm_gobj _ _ _ _ _ _ _ _ _ S _ GR) as O.
  destruct (normal_graphics 0 st h m _ info sc eq_refl H M W A) as (e & En & Ru).
  destruct (shows_livery 0 (purchase_recs p) [RName (rid (t_id t)); RDefine (rid (t_id t)) (merge (train_own t) props)] r (t_head t) false _ (rid (t_id t)) m
     (s_objs st) e false sc (subtype_of (sc_own sc)) dir En Ru O L N) as (l & s & S1 & S2 & S3).
  - intros q [<- | [<- | []]]; exact I.
  - exact (subtype_value 0 _ _ eq_refl).
  - apply Z.mod_pos_bound. lia.
  - exact D.
  - exists l, s. split; [exact S1|]. split; [exact S2|]. rewrite E in ONE |- *. split; [exact S3|]. intros s' S'. exact (shows_unique _ _ _ _ _ _ _ _ ONE S' S3).
Qed.

(** Part number [i] (from 0) shows its own, by the subtype of the head, which
    is [i + 1] vehicles before it. *)
Theorem C64_train_part : forall rid text evs t recs i p pevs sc info dir, train_built rid text evs t recs -> distinct rid t ->
  nth_error (t_parts t) i = Some p -> apply_events 0 start pevs = Some (p_manager p) ->
  p_liveries p <> [] -> valid_liveries (p_liveries p) = true -> asks 0 info sc -> 0 <= dir < 8 ->
  exists l s, livery_for (p_liveries p) (sc_other sc (- (1 + Z.of_nat i)) 0xF2 mod 256) = Some l /\ nth_error (l_sprites l) (Z.to_nat dir) = Some s /\
    shows 0 recs (rid (p_id p)) false sc dir s /\ forall s', shows 0 recs (rid (p_id p)) false sc dir s' -> s' = s.
Proof.
  intros rid text evs t recs i p pevs sc info dir B DI NP UP N L A D. pose proof (train_one _ _ _ _ _ (rid (p_id p)) B DI) as ONE.
  destruct B as (U & H0). rewrite <- (rev_involutive evs) in U.
  destruct (train_inv _ _ _ _ _ U H0) as (pu & st0 & h0 & m0 & props0 & ec & r & _ & _ & _ & _ & _ & PR & E & _).
  destruct (parts_nth _ _ _ _ _ _ _ PR NP) as (a & pl & b & Er & PP). rewrite <- (rev_involutive pevs) in UP.
  destruct (part_inv _ _ _ _ _ _ UP PP) as (st & h & m & props & H & M & _ & El & G). destruct (G N) as [W O]. clear G.
  destruct (normal_graphics 0 st h m _ info sc eq_refl H M W A) as (e & En & Ru). rewrite (ls_recs_ok _ N) in El.
  set (pre := (purchase_recs pu ++ ls_recs (t_head t) ++ [RName (rid (t_id t)); RDefine (rid (t_id t)) (merge (train_own t) props0)])
          ++ RMap (rid (t_id t)) m0 (s_objs st0) :: a).
  destruct (shows_livery 0 pre [RDefine (rid (p_id p)) (merge (("sprite_id", 253) :: [("engine_class", ec)]) props)] b (p_liveries p) false _ (rid (p_id p)) m
     (s_objs st) e false sc (sc_other sc (- (1 + Z.of_nat i)) 242 mod 256) dir En Ru O L N) as (l & s & S1 & S2 & S3).
  - intros q [<- | []]; exact I.
  - unfold code_at. destruct (Z.ltb_spec 0 (1 + Z.of_nat i)); [|lia]. apply part_value. lia.
  - apply Z.mod_pos_bound. lia.
  - exact D.
  - exists l, s. split; [exact S1|]. split; [exact S2|].
    assert (SH : shows 0 recs (rid (p_id p)) false sc dir s).
    { assert (EQ : recs = (pre ++ livery_records (p_liveries p) ++ [RDefine (rid (p_id p)) (merge (("sprite_id", 253) :: [("engine_class", ec)]) props)]) ++ RMap (rid (p_id p)) m (s_objs st) :: b).
      { rewrite E, Er, El. unfold pre. generalize (livery_records (p_liveries p)) (purchase_recs pu) (ls_recs (t_head t)). intros. repeat (rewrite <- !app_assoc; cbn [app]). reflexivity. }
      rewrite EQ. exact S3. }
    split; [exact SH|]. intros s' S'. exact (shows_unique _ _ _ _ _ _ _ _ ONE S' SH).
Qed.

(** The purchase list. *)
Theorem C64_train_purchase : forall rid text evs t recs sc info dir, train_built rid text evs t recs -> distinct rid t -> asks 0 info sc ->
  (forall s, t_purchase t = Some s -> shows 0 recs (rid (t_id t)) true sc dir s /\ forall s', shows 0 recs (rid (t_id t)) true sc dir s' -> s' = s) /\
  (forall l n s, t_purchase t = None -> nth_error (t_liveries t) 0 = Some l -> t_length t = Some n -> 8 < n -> nth_error (l_sprites l) 6 = Some s ->
     shows 0 recs (rid (t_id t)) true sc dir s /\ forall s', shows 0 recs (rid (t_id t)) true sc dir s' -> s' = s).
Proof.
  intros rid text evs t recs sc info dir B DI A. pose proof (train_one _ _ _ _ _ (rid (t_id t)) B DI) as ONE.
  destruct B as (U & H0). rewrite <- (rev_involutive evs) in U.
  destruct (train_inv _ _ _ _ _ U H0) as (p & st & h & m & props & ec & r & TP & H & M & _ & _ & _ & E & S & _).
  assert (G : forall s, p = Some s -> shows 0 recs (rid (t_id t)) true sc dir s /\ forall s', shows 0 recs (rid (t_id t)) true sc dir s' -> s' = s).
  { intros s ->. assert (W : snd (wanted CGraphics "graphics" h) = Some (vobj_of O_PURCHASE)) by (rewrite (sm_pur _ _ _ _ _ _ _ _ _ S); reflexivity).
    destruct (purchase_graphics 0 st h m (vobj_of O_PURCHASE) info sc eq_refl H M ltac:(rewrite W; reflexivity) A) as (e & En & Ru).
    assert (SH : shows 0 recs (rid (t_id t)) true sc dir s).
    { rewrite E. apply (shows_purchase 0 s _ r (rid (t_id t)) m (s_objs st) e sc dir En Ru (sm_pobj _ _ _ _ _ _ _ _ _ S s eq_refl)).
      intros j J. apply in_app_iff in J as [J|J]; [|cbn [In] in J; intuition discriminate].
      destruct (t_head t) as [|l ls]; [destruct J|]. exact (livery_no_layout _ _ J). }
    split; [exact SH|]. intros s' S'. exact (shows_unique _ _ _ _ _ _ _ _ ONE S' SH). }
  unfold train_purchase in TP. split.
  - intros s P. rewrite P in TP. apply some_inj in TP. subst p. apply G. reflexivity.
  - intros l n s P NL LE G8 S6. rewrite P, LE in TP. destruct (t_liveries t) as [|l0 ls]; [discriminate NL|]. cbn [nth_error] in NL. apply some_inj in NL. subst l0.
    destruct (Z.eqb_spec n 0); [lia|]. destruct (Z.ltb_spec 8 n); [|lia]. rewrite S6 in TP. cbn [bind] in TP. apply some_inj in TP. subst p. apply G. reflexivity.
Qed.

(** Names and additional text, as for the others. *)
Theorem C64_train_names : forall rid text evs t recs sc info, train_built rid text evs t recs -> distinct rid t -> 1 < len (t_liveries t) -> asks 25 info sc ->
  let x := match nth_error (t_liveries t) (Z.to_nat (subtype_of (sc_own sc))) with Some l => text (l_name l) | None => 0x400 end in
  says 0 recs (rid (t_id t)) false sc x /\ forall x', says 0 recs (rid (t_id t)) false sc x' -> x' = x.
Proof.
  intros rid text evs t recs sc info B DI N A x. pose proof (train_one _ _ _ _ _ (rid (t_id t)) B DI) as ONE.
  destruct B as (U & H0). rewrite <- (rev_involutive evs) in U.
  destruct (train_inv _ _ _ _ _ U H0) as (p & st & h & m & props & ec & r & TP & H & M & _ & _ & _ & E & S & _).
  assert (C : callback_of 0 "cargo_subtype_text" 25 CDefault) by (exists 32; cbn; tauto).
  assert (W : fst (wanted CDefault "cargo_subtype_text" h) = Some (vobj_of O_NAMES)).
  { rewrite (sm_names _ _ _ _ _ _ _ _ _ S). apply Z.ltb_lt in N. now rewrite N. }
  destruct (normal_callback 0 st h m _ 25 CDefault _ info sc eq_refl H M C W A) as (e & En & Ru).
  assert (SA : says 0 recs (rid (t_id t)) false sc x).
  { eexists. rewrite E. apply (reply_obj 0 _ (rid (t_id t)) m (s_objs st) r e _ _ _ false sc En Ru (sm_nobj _ _ _ _ _ _ _ _ _ S N)). now apply names_run. }
  split; [exact SA|]. intros x' (pre & R'). destruct SA as (pre0 & R). destruct (reply_unique _ _ _ _ _ _ _ _ _ ONE R' R) as (_ & Q). now injection Q.
Qed.
Theorem C64_train_text : forall rid text evs t recs s sc info, train_built rid text evs t recs -> distinct rid t -> t_text t = Some s -> asks 35 info sc ->
  says 0 recs (rid (t_id t)) true sc (text s) /\ forall x', says 0 recs (rid (t_id t)) true sc x' -> x' = text s.
Proof.
  intros rid text evs t recs s sc info B DI N A. pose proof (train_one _ _ _ _ _ (rid (t_id t)) B DI) as ONE.
  destruct B as (U & H0). rewrite <- (rev_involutive evs) in U.
  destruct (train_inv _ _ _ _ _ U H0) as (p & st & h & m & props & ec & r & TP & H & M & _ & _ & _ & E & S & _).
  assert (C : callback_of 0 "additional_text" 35 CPurchase) by (exists 0; cbn; tauto).
  assert (W : snd (wanted CPurchase "additional_text" h) = Some (vobj_of O_TEXT)) by (rewrite (sm_text _ _ _ _ _ _ _ _ _ S), N; reflexivity).
  destruct (purchase_callback 0 st h m _ 35 CPurchase _ info sc eq_refl H M C W A) as (e & En & Ru).
  assert (SA : says 0 recs (rid (t_id t)) true sc (text s)).
  { eexists. rewrite E. apply (reply_obj 0 _ (rid (t_id t)) m (s_objs st) r e _ (HInt (text s)) _ true sc En Ru (sm_tobj _ _ _ _ _ _ _ _ _ S s N)). reflexivity. }
  split; [exact SA|]. intros x' (pre & R'). destruct SA as (pre0 & R). destruct (reply_unique _ _ _ _ _ _ _ _ _ ONE R' R) as (_ & Q). now injection Q.
Qed.

(** Articulated parts: asked for vehicle 1, 2, .. behind the head, the game
    gets the ids of the parts in order, then "no more" (7FFF). *)
Theorem C64_train_articulated : forall rid text evs t recs purchase sc info, train_built rid text evs t recs -> distinct rid t -> t_parts t <> [] ->
  asks 22 info sc -> 1 <= info mod 256 ->
  let x := match nth_error (t_parts t) (Z.to_nat (info mod 256 - 1)) with Some p => rid (p_id p) | None => 0x7FFF end in
  says 0 recs (rid (t_id t)) purchase sc x /\ forall x', says 0 recs (rid (t_id t)) purchase sc x' -> x' = x.
Proof.
  intros rid text evs t recs purchase sc info B DI N A POS x. pose proof (train_one _ _ _ _ _ (rid (t_id t)) B DI) as ONE.
  destruct B as (U & H0). rewrite <- (rev_involutive evs) in U.
  destruct (train_inv _ _ _ _ _ U H0) as (p & st & h & m & props & ec & r & TP & H & M & _ & _ & _ & E & _ & _ & S). destruct (S N) as [W O]. clear S.
  assert (C : callback_of 0 "articulated_part" 22 CDual) by (exists 16; cbn; tauto).
  assert (exists e, entry purchase m = Some e /\ run 0 (sc_own sc) e = Some (TUser (vobj_of O_PARTS))) as (e & En & Ru).
  { destruct purchase.
    - apply (purchase_callback 0 st h m _ 22 CDual _ info sc eq_refl H M C); [|exact A]. now rewrite W.
    - apply (normal_callback 0 st h m _ 22 CDual _ info sc eq_refl H M C); [|exact A]. now rewrite W. }
  assert (HR : hrun 0 sc (parts_obj rid (t_parts t)) = Some (HInt x)).
  { unfold parts_obj. rewrite (info_switch 0 sc _ _ (info mod 256) eq_refl) by (destruct A as (_ & _ & _ & ->); reflexivity).
    assert (G : forall ps k y, dict_get Z.eqb (map (fun e : Z * part => (fst e + 1, HInt (rid (p_id (snd e))))) (enum_from k ps)) (y + 1) =
              option_map (fun p => HInt (rid (p_id p))) (dict_get Z.eqb (enum_from k ps) y)).
    { induction ps as [|q ps IH]; intros k y; [reflexivity|]. cbn [enum_from map dict_get fst snd].
      replace (y + 1 =? k + 1) with (y =? k) by (destruct (Z.eqb_spec y k), (Z.eqb_spec (y + 1) (k + 1)); lia || reflexivity).
      destruct (y =? k); [reflexivity|apply IH]. }
    replace (info mod 256) with ((info mod 256 - 1) + 1) at 1 by lia. unfold enum. rewrite G, enum_get. destruct (Z.leb_spec 0 (info mod 256 - 1)); [|lia].
    rewrite Z.sub_0_r. unfold x. destruct (nth_error (t_parts t) (Z.to_nat (info mod 256 - 1))); reflexivity. }
  assert (SA : says 0 recs (rid (t_id t)) purchase sc x).
  { eexists. rewrite E. exact (reply_obj 0 _ (rid (t_id t)) m (s_objs st) r e _ _ _ purchase sc En Ru O HR). }
  split; [exact SA|]. intros x' (pre & R'). destruct SA as (pre0 & R). destruct (reply_unique _ _ _ _ _ _ _ _ _ ONE R' R) as (_ & Q). now injection Q.
Qed.

(** Sounds: the one for the event, and no number (the default sound) for
    other events. *)
Theorem C64_train_sounds : forall rid text evs t recs sc info, train_built rid text evs t recs -> distinct rid t -> t_sounds t <> [] -> asks 51 info sc ->
  match dict_get Z.eqb (t_sounds t) (info mod 256) with
  | Some s => says 0 recs (rid (t_id t)) false sc s /\ forall x', says 0 recs (rid (t_id t)) false sc x' -> x' = s
  | None => t_head t <> [] -> forall x', ~ says 0 recs (rid (t_id t)) false sc x'
  end.
Proof.
  intros rid text evs t recs sc info B DI N A. pose proof (train_one _ _ _ _ _ (rid (t_id t)) B DI) as ONE.
  destruct B as (U & H0). rewrite <- (rev_involutive evs) in U.
  destruct (train_inv _ _ _ _ _ U H0) as (p & st & h & m & props & ec & r & TP & H & M & _ & _ & _ & E & _ & S & _). destruct (S N) as (W & d & G & O). clear S.
  assert (C : callback_of 0 "sound_effect" 51 CDefault) by (exists 128; cbn; tauto).
  destruct (normal_callback 0 st h m _ 51 CDefault (vobj_of O_SOUND) info sc eq_refl H M C ltac:(now rewrite W) A) as (e & En & Ru).
  assert (GET : forall l y, dict_get Z.eqb (map (fun e : Z * Z => (fst e, HInt (snd e))) l) y = option_map HInt (dict_get Z.eqb l y)).
  { induction l as [|[k a] l IH]; intros y; [reflexivity|]. cbn [map dict_get fst snd]. destruct (y =? k); [reflexivity|apply IH]. }
  assert (IV : sc_own sc 16 mod 256 = info mod 256) by (destruct A as (_ & _ & _ & ->); reflexivity).
  pose proof (info_switch 0 sc (map (fun e : Z * Z => (fst e, HInt (snd e))) (t_sounds t)) d (info mod 256) eq_refl IV) as HS. rewrite GET in HS.
  destruct (dict_get Z.eqb (t_sounds t) (info mod 256)) as [s|]; cbn [option_map] in HS.
  - change (hrun 0 sc (HInt s)) with (Some (HInt s)) in HS.
    assert (SA : says 0 recs (rid (t_id t)) false sc s).
    { eexists. rewrite E. exact (reply_obj 0 _ (rid (t_id t)) m (s_objs st) r e _ _ _ false sc En Ru O HS). }
    split; [exact SA|]. intros x' (pre & R'). destruct SA as (pre0 & R). destruct (reply_unique _ _ _ _ _ _ _ _ _ ONE R' R) as (_ & Q). now injection Q.
  - intros NH x' (pre' & R'). assert (GR : gr_of (nm "cargo_subtype") (t_head t) = Some (livery_graphics false (nm "cargo_subtype") (t_head t))) by (unfold gr_of; destruct (t_head t); [contradiction|reflexivity]).
    rewrite (G _ GR) in HS, O. destruct (livery_run 0 sc false (nm "cargo_subtype") (t_head t) NH) as (i & l & Hr & _).
    { intros _. exists (subtype_of (sc_own sc)). split; [exact (subtype_value 0 _ _ eq_refl)|]. apply Z.mod_pos_bound. lia. }
    rewrite Hr in HS.
    pose proof (reply_obj 0 (purchase_recs p ++ ls_recs (t_head t) ++ [RName (rid (t_id t)); RDefine (rid (t_id t)) (merge (train_own t) props)]) (rid (t_id t)) m (s_objs st) r e _ _ _ false sc En Ru O HS) as R. rewrite <- E in R.
    destruct (reply_unique _ _ _ _ _ _ _ _ _ ONE R' R) as (_ & Q). discriminate Q.
Qed.

(** Speed and weight. *)
Theorem C64_train_weight : forall rid text evs t recs, train_built rid text evs t recs ->
  (forall n, In n ["max_speed"; "weight_low"; "weight_high"] -> dict_get String.eqb (t_props t) n = None) ->
  defined recs (rid (t_id t)) "max_speed" (t_speed t) /\
  exists lo hi, defined recs (rid (t_id t)) "weight_low" lo /\ defined recs (rid (t_id t)) "weight_high" hi /\ 0 <= lo < 256 /\
    lo + 256 * hi = t_weight t /\ (0 <= t_weight t < 65536 -> 0 <= hi < 256).
Proof.
  intros rid text evs t recs (U & H0) K. rewrite <- (rev_involutive evs) in U.
  destruct (train_inv _ _ _ _ _ U H0) as (p & st & h & m & props & ec & r & TP & H & M & F & _ & _ & E & _).
  assert (DEF : forall n x, n <> "cb_flags" -> n <> "extra_cb_flags" -> dict_get String.eqb (t_props t) n = None ->
     dict_get String.eqb (train_own t) n = Some x -> defined recs (rid (t_id t)) n x).
  { intros n x Q1 Q2 Q3 Q4. eexists. split; [rewrite E; apply in_app_iff; left; apply in_app_iff; right; apply in_app_iff; right; right; left; reflexivity|].
    exact (own_get _ _ _ _ _ _ _ F Q1 Q2 Q3 Q4). }
  split; [apply DEF; try discriminate; [apply K; cbn; tauto|reflexivity]|].
  exists (t_weight t mod 256), (t_weight t / 256). split; [apply DEF; try discriminate; [apply K; cbn; tauto|reflexivity]|].
  split; [apply DEF; try discriminate; [apply K; cbn; tauto|reflexivity]|]. Z.to_euclidean_division_equations; lia.
Qed.
