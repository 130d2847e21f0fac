(** C64: road vehicles, ships and trains.  The statements use SpecVehicle
    (what the game reads from the records) and SpecCallback ([wanted]: the last
    thing the program said about a callback). *)
From Coq Require Import ZArith List Bool String Lia.
From Verif Require Import Base BaseFacts RecordsModel ContainerProofs IdMapProofs DecodeModel VA2Model VA2Vars ParserModel CallbackModel SpecCallback
  CallbackProofs CallbackProofs2 PropsCallback LibModel VehicleModel SpecVehicle VehicleProofs VehicleProofs2 VehicleProofs3 VehicleProofs4.
Import ListNotations.
Open Scope string_scope.
Open Scope list_scope.
Open Scope Z_scope.

(** ---- road vehicles and ships ---- *)

(** [v], made with any speed, wrote [recs]; the program has done [evs] to its
    callbacks. *)
Definition built (f : Z) (text : string -> Z) (evs : list event) (v : vehicle) (recs : list vrec) : Prop :=
  apply_events f start evs = Some (v_manager v) /\
  ((f = 1 /\ exists p, rv_sprites text p v = Some recs) \/ (f = 2 /\ exists s, ship_sprites text s v = Some recs)).

Lemma built_inv : forall f text evs v recs, built f text evs v recs ->
  exists st h m props own, is_vehicle_feature f = true /\ hist f st h /\ make_switch f (s_man st) = Some m /\
   recs = (purchase_recs (v_purchase v) ++ [RName (v_vid v); RDefine (v_vid v) (merge own props)] ++ ls_recs (v_liveries v)) ++ [RMap (v_vid v) m (s_objs st)] /\
   summary f text (v_purchase v) (v_liveries v) (match v_liveries v with [] => None | ls => Some (livery_graphics true (nm "cargo_subtype") ls) end)
           (v_text v) (rev evs) h (s_objs st) /\ valid_liveries (v_liveries v) = true /\
   (forall c n, ~ In n ["graphics"; "additional_text"; "cargo_subtype_text"; "change_properties"] -> wanted c n h = wanted c n (rev evs)).
Proof.
  intros f text evs v recs (U & H). rewrite <- (rev_involutive evs) in U.
  destruct H as [(-> & p & H) | (-> & s & H)]; unfold rv_sprites, ship_sprites in H.
  - destruct (vehicle_inv 1 text (set_speed p) _ v recs (rev evs) "change_properties" O_SPEED eq_refl (speed_step p)
      ltac:(cbn [In]; intuition discriminate) ltac:(cbn [In]; intuition discriminate) U H) as (st & st1 & st2 & h1 & h & m & props & A & B & _ & C & D & E & F & _).
    exists st, h, m, props, [("sprite_id", 255); ("precise_max_speed", Z.min p 255); ("max_speed", Z.min (speed_value p) 255)]. split; [reflexivity|]. split; [exact A|]. split; [exact B|]. split; [rewrite C, <- !app_assoc; unfold ls_recs; destruct (v_liveries v); reflexivity|].
    split; [exact D|]. split; [exact E|exact F].
  - destruct (vehicle_inv 2 text (fun st => Some st) [("sprite_id", 255); ("max_speed", s)] v recs (rev evs) "change_properties" O_SPEED eq_refl)
      as (st & st1 & st2 & h1 & h & m & props & A & B & _ & C & D & E & F & _).
    + intros st st' Q. apply some_inj in Q. subst st'. apply step_none.
    + cbn [In]; intuition discriminate.
    + cbn [In]; intuition discriminate.
    + exact U.
    + exact H.
    + exists st, h, m, props, [("sprite_id", 255); ("max_speed", s)]. split; [reflexivity|]. split; [exact A|]. split; [exact B|]. split; [rewrite C, <- !app_assoc; unfold ls_recs; destruct (v_liveries v); reflexivity|].
      split; [exact D|]. split; [exact E|exact F].
Qed.

Lemma no_maps_real : forall id l, filter (map_of id) (map RReal l) = [].
Proof. intros id l. induction l; [reflexivity|assumption]. Qed.
Lemma no_maps_ls : forall id ls, filter (map_of id) (ls_recs ls) = [].
Proof. intros id [|l ls]; [reflexivity|]. cbn [ls_recs livery_records filter map_of]. apply no_maps_real. Qed.
Lemma no_maps_purchase : forall id p, filter (map_of id) (purchase_recs p) = [].
Proof. intros id [s|]; reflexivity. Qed.
Lemma built_one : forall f text evs v recs, built f text evs v recs -> one_map recs (v_vid v).
Proof.
  intros f text evs v recs B. destruct (built_inv _ _ _ _ _ B) as (st & h & m & props & own & _ & _ & _ & -> & _).
  unfold one_map. rewrite !filter_app, no_maps_purchase, no_maps_ls. cbn [filter map_of app List.length]. rewrite Z.eqb_refl. cbn. lia.
Qed.
Lemma ls_recs_same : forall ls, match ls with [] => [] | _ => livery_records ls end = ls_recs ls.
Proof. now destruct ls. Qed.

(** What is drawn is the sprite of the direction of the livery for the
    subtype, and nothing else. *)
Theorem C64_livery : forall f text evs v recs sc info dir, built f text evs v recs -> v_liveries v <> [] -> asks 0 info sc -> 0 <= dir < 8 ->
  exists l s, livery_for (v_liveries v) (subtype_of (sc_related sc)) = Some l /\ nth_error (l_sprites l) (Z.to_nat dir) = Some s /\
    shows f recs (v_vid v) false sc dir s /\ forall s', shows f recs (v_vid v) false sc dir s' -> s' = s.
Proof.
  intros f text evs v recs sc info dir B N A D. pose proof (built_one _ _ _ _ _ B) as ONE.
  destruct (built_inv _ _ _ _ _ B) as (st & h & m & props & own & V & H & M & E & S & L & _).
  rewrite (ls_recs_ok _ N) in E.
  assert (W : fst (wanted CGraphics "graphics" h) = Some (vobj_of O_GRAPHICS)) by (rewrite (sm_gfx _ _ _ _ _ _ _ _ _ S); destruct (v_liveries v); [contradiction|reflexivity]).
  assert (O : dict_get Z.eqb (s_objs st) O_GRAPHICS = Some (livery_graphics true (nm "cargo_subtype") (v_liveries v))).
  { apply (sm_gobj _ _ _ _ _ _ _ _ _ S). destruct (v_liveries v); [contradiction|reflexivity]. }
  destruct (normal_graphics f st h m _ info sc V H M W A) as (e & En & Ru).
  destruct (shows_livery f (purchase_recs (v_purchase v) ++ [RName (v_vid v); RDefine (v_vid v) (merge own props)]) [] [] (v_liveries v) true _ (v_vid v) m
     (s_objs st) e false sc (subtype_of (sc_related sc)) dir En Ru O L N) as (l & s & S1 & S2 & S3).
  - intros q [].
  - exact (subtype_value f _ _ V).
  - apply Z.mod_pos_bound. lia.
  - exact D.
  - exists l, s. split; [exact S1|]. split; [exact S2|].
    assert (SH : shows f recs (v_vid v) false sc dir s) by (rewrite E; rewrite app_nil_r, <- app_assoc in S3; rewrite <- !app_assoc in *; exact S3).
    split; [exact SH|]. intros s' S'. exact (shows_unique _ _ _ _ _ _ _ _ ONE S' SH).
Qed.

(** The purchase list shows the purchase sprite, from every direction. *)
Theorem C64_purchase : forall f text evs v recs s sc info dir, built f text evs v recs -> v_purchase v = Some s -> asks 0 info sc ->
  shows f recs (v_vid v) true sc dir s /\ forall s', shows f recs (v_vid v) true sc dir s' -> s' = s.
Proof.
  intros f text evs v recs s sc info dir B P A. pose proof (built_one _ _ _ _ _ B) as ONE.
  destruct (built_inv _ _ _ _ _ B) as (st & h & m & props & own & V & H & M & E & S & L & _).
  assert (W : snd (wanted CGraphics "graphics" h) = Some (vobj_of O_PURCHASE)) by (rewrite (sm_pur _ _ _ _ _ _ _ _ _ S), P; reflexivity).
  destruct (purchase_graphics f st h m (vobj_of O_PURCHASE) info sc V H M ltac:(rewrite W; reflexivity) A) as (e & En & Ru).
  assert (SH : shows f recs (v_vid v) true sc dir s).
  { rewrite E, P. apply (shows_purchase f s _ [] (v_vid v) m (s_objs st) e sc dir En Ru (sm_pobj _ _ _ _ _ _ _ _ _ S s P)).
    intros j J. apply in_app_iff in J as [J|J]; [cbn [In] in J; intuition discriminate|].
    destruct (v_liveries v) as [|l ls]; [destruct J|]. exact (livery_no_layout _ _ J). }
  split; [exact SH|]. intros s' S'. exact (shows_unique _ _ _ _ _ _ _ _ ONE S' SH).
Qed.
(** Without one it shows the vehicle as it is drawn in the game, unless the
    program has purchase graphics of its own. *)
Theorem C64_no_purchase : forall f text evs v recs sc info dir, built f text evs v recs -> v_purchase v = None ->
  snd (wanted CGraphics "graphics" (rev evs)) = None -> v_liveries v <> [] -> asks 0 info sc -> 0 <= dir < 8 ->
  exists l s, livery_for (v_liveries v) (subtype_of (sc_related sc)) = Some l /\ nth_error (l_sprites l) (Z.to_nat dir) = Some s /\
    shows f recs (v_vid v) true sc dir s /\ forall s', shows f recs (v_vid v) true sc dir s' -> s' = s.
Proof.
  intros f text evs v recs sc info dir B P NP N A D. pose proof (built_one _ _ _ _ _ B) as ONE.
  destruct (built_inv _ _ _ _ _ B) as (st & h & m & props & own & V & H & M & E & S & L & _).
  rewrite (ls_recs_ok _ N) in E.
  assert (W : fst (wanted CGraphics "graphics" h) = Some (vobj_of O_GRAPHICS)) by (rewrite (sm_gfx _ _ _ _ _ _ _ _ _ S); destruct (v_liveries v); [contradiction|reflexivity]).
  assert (W2 : snd (wanted CGraphics "graphics" h) = None) by (rewrite (sm_pur _ _ _ _ _ _ _ _ _ S), P; exact NP).
  assert (O : dict_get Z.eqb (s_objs st) O_GRAPHICS = Some (livery_graphics true (nm "cargo_subtype") (v_liveries v))).
  { apply (sm_gobj _ _ _ _ _ _ _ _ _ S). destruct (v_liveries v); [contradiction|reflexivity]. }
  destruct (purchase_graphics f st h m (vobj_of O_GRAPHICS) info sc V H M ltac:(rewrite W2; exact W) A) as (e & En & Ru).
  destruct (shows_livery f (purchase_recs (v_purchase v) ++ [RName (v_vid v); RDefine (v_vid v) (merge own props)]) [] [] (v_liveries v) true _ (v_vid v) m
     (s_objs st) e true sc (subtype_of (sc_related sc)) dir En Ru O L N) as (l & s & S1 & S2 & S3).
  - intros q [].
  - exact (subtype_value f _ _ V).
  - apply Z.mod_pos_bound. lia.
  - exact D.
  - exists l, s. split; [exact S1|]. split; [exact S2|].
    assert (SH : shows f recs (v_vid v) true sc dir s) by (rewrite E; rewrite app_nil_r, <- app_assoc in S3; rewrite <- !app_assoc in *; exact S3).
    split; [exact SH|]. intros s' S'. exact (shows_unique _ _ _ _ _ _ _ _ ONE S' SH).
Qed.

Lemma names_run : forall f sc text ls, is_vehicle_feature f = true ->
  hrun f sc (livery_names text ls) =
  Some (HInt (match nth_error ls (Z.to_nat (subtype_of (sc_own sc))) with Some l => text (l_name l) | None => 1024 end)).
Proof.
  intros f sc text ls V. unfold livery_names. rewrite (hrun_switch f sc false _ _ _ _ (subtype_value f _ _ V)).
  pose proof (enum_map_get livery hobj (fun l => HInt (text (l_name l))) ls 0 (subtype_of (sc_own sc))) as EM. cbv beta in EM.
  unfold enum. rewrite EM, enum_get, Z.sub_0_r. pose proof (Z.mod_pos_bound (sc_own sc 242) 256 ltac:(lia)) as Q.
  unfold subtype_of. destruct (Z.leb_spec 0 (sc_own sc 242 mod 256)); [|lia].
  destruct (nth_error ls (Z.to_nat (sc_own sc 242 mod 256))); reflexivity.
Qed.
(** Several liveries: the refit window names them, each in turn, and then
    gets "no more" (400). *)
Theorem C64_names : forall f text evs v recs sc info, built f text evs v recs -> 1 < len (v_liveries v) -> asks 25 info sc ->
  let x := match nth_error (v_liveries v) (Z.to_nat (subtype_of (sc_own sc))) with Some l => text (l_name l) | None => 0x400 end in
  says f recs (v_vid v) false sc x /\ forall x', says f recs (v_vid v) false sc x' -> x' = x.
Proof.
  intros f text evs v recs sc info B N A x. pose proof (built_one _ _ _ _ _ B) as ONE.
  destruct (built_inv _ _ _ _ _ B) as (st & h & m & props & own & V & H & M & E & S & L & _).
  assert (C : callback_of f "cargo_subtype_text" 25 CDefault) by (destruct (vehicle_cases f V) as [-> | [-> | [-> | ->]]]; exists 32; cbn; tauto).
  assert (W : fst (wanted CDefault "cargo_subtype_text" h) = Some (vobj_of O_NAMES)).
  { rewrite (sm_names _ _ _ _ _ _ _ _ _ S). apply Z.ltb_lt in N. now rewrite N. }
  destruct (normal_callback f st h m _ 25 CDefault _ info sc V H M C W A) as (e & En & Ru).
  assert (SA : says f recs (v_vid v) false sc x).
  { eexists. rewrite E. apply (reply_obj f _ (v_vid v) m (s_objs st) [] e _ _ _ false sc En Ru (sm_nobj _ _ _ _ _ _ _ _ _ S N)). apply names_run, V. }
  split; [exact SA|]. intros x' (pre & R'). destruct SA as (pre0 & R). destruct (reply_unique _ _ _ _ _ _ _ _ _ ONE R' R) as (_ & Q). now injection Q.
Qed.
(** The additional text of the purchase window. *)
Theorem C64_text : forall f text evs v recs t sc info, built f text evs v recs -> v_text v = Some t -> asks 35 info sc ->
  says f recs (v_vid v) true sc (text t) /\ forall x', says f recs (v_vid v) true sc x' -> x' = text t.
Proof.
  intros f text evs v recs t sc info B N A. pose proof (built_one _ _ _ _ _ B) as ONE.
  destruct (built_inv _ _ _ _ _ B) as (st & h & m & props & own & V & H & M & E & S & L & _).
  assert (C : callback_of f "additional_text" 35 CPurchase) by (destruct (vehicle_cases f V) as [-> | [-> | [-> | ->]]]; exists 0; cbn; tauto).
  assert (W : snd (wanted CPurchase "additional_text" h) = Some (vobj_of O_TEXT)) by (rewrite (sm_text _ _ _ _ _ _ _ _ _ S), N; reflexivity).
  destruct (purchase_callback f st h m _ 35 CPurchase _ info sc V H M C W A) as (e & En & Ru).
  assert (SA : says f recs (v_vid v) true sc (text t)).
  { eexists. rewrite E. apply (reply_obj f _ (v_vid v) m (s_objs st) [] e _ (HInt (text t)) _ true sc En Ru (sm_tobj _ _ _ _ _ _ _ _ _ S t N)). reflexivity. }
  split; [exact SA|]. intros x' (pre & R'). destruct SA as (pre0 & R). destruct (reply_unique _ _ _ _ _ _ _ _ _ ONE R' R) as (_ & Q). now injection Q.
Qed.
(** What the program set itself stays: callbacks the class has no business
    with, and the graphics of a vehicle without liveries. *)
Theorem C64_keeps : forall f text evs v recs sc, built f text evs v recs ->
  (forall n cb c u info, callback_of f n cb c -> ~ In n ["additional_text"; "cargo_subtype_text"; "change_properties"] ->
     fst (wanted c n (rev evs)) = Some u -> asks cb info sc -> reaches f recs (v_vid v) false sc u) /\
  (forall n cb c u info, callback_of f n cb c -> ~ In n ["additional_text"; "cargo_subtype_text"; "change_properties"] ->
     snd (wanted c n (rev evs)) = Some u -> asks cb info sc -> reaches f recs (v_vid v) true sc u) /\
  (forall u info, v_liveries v = [] -> fst (wanted CGraphics "graphics" (rev evs)) = Some u -> asks 0 info sc -> reaches f recs (v_vid v) false sc u).
Proof.
  intros f text evs v recs sc B. destruct (built_inv _ _ _ _ _ B) as (st & h & m & props & own & V & H & M & E & S & L & K).
  assert (NG : forall n cb c, callback_of f n cb c -> n <> "graphics").
  { intros n cb c (fl & I) ->. revert I. destruct (vehicle_cases f V) as [-> | [-> | [-> | ->]]]; cbn; intuition discriminate. }
  split; [|split].
  - intros n cb c u info C NI W A. rewrite <- (K c n) in W by (cbn [In] in NI |- *; pose proof (NG _ _ _ C); intuition congruence).
    destruct (normal_callback f st h m n cb c u info sc V H M C W A) as (e & En & Ru). eexists. exists m, (s_objs st), [], e. rewrite E. split; [reflexivity|]. split; [exact En|exact Ru].
  - intros n cb c u info C NI W A. rewrite <- (K c n) in W by (cbn [In] in NI |- *; pose proof (NG _ _ _ C); intuition congruence).
    destruct (purchase_callback f st h m n cb c u info sc V H M C W A) as (e & En & Ru). eexists. exists m, (s_objs st), [], e. rewrite E. split; [reflexivity|]. split; [exact En|exact Ru].
  - intros u info NL W A. assert (W' : fst (wanted CGraphics "graphics" h) = Some u) by (rewrite (sm_gfx _ _ _ _ _ _ _ _ _ S), NL; exact W).
    destruct (normal_graphics f st h m u info sc V H M W' A) as (e & En & Ru). eexists. exists m, (s_objs st), [], e. rewrite E. split; [reflexivity|]. split; [exact En|exact Ru].
Qed.

(** ---- the speed of road vehicles ---- *)

(** The speed the game reads back is within 3 half km/h-ish of the one given
    and exact for multiples of 4; other properties are not answered with a
    number. *)
Lemma info_switch : forall f sc l d x, is_vehicle_feature f = true -> sc_own sc 16 mod 256 = x ->
  hrun f sc (HSwitch false (nm "extra_callback_info1_byte") l d) = match dict_get Z.eqb l x with Some t => hrun f sc t | None => hrun f sc d end.
Proof. intros f sc l d x V X. rewrite (hrun_switch f sc false _ l d (sc_own sc 16 mod 256) (info_value f _ _ V)). now rewrite X. Qed.
Lemma own_get : forall f m own props props' n x, set_flag_props f m props = Some props' -> n <> "cb_flags" -> n <> "extra_cb_flags" ->
  dict_get String.eqb props n = None -> dict_get String.eqb own n = Some x -> dict_get String.eqb (merge own props') n = Some x.
Proof. intros f m own props props' n x F N1 N2 P O. rewrite merge_none; [exact O|]. rewrite (flags_keep _ _ _ _ _ F N1 N2). exact P. Qed.

Theorem C64_road_speed : forall text evs p v recs, apply_events 1 start evs = Some (v_manager v) -> rv_sprites text p v = Some recs ->
  0 <= p < 131070 -> dict_get String.eqb (v_props v) "max_speed" = None -> dict_get String.eqb (v_props v) "precise_max_speed" = None ->
  exists p08 p15 cb, defined recs (v_vid v) "precise_max_speed" p08 /\ defined recs (v_vid v) "max_speed" p15 /\
    0 <= p08 < 256 /\ 0 <= p15 < 256 /\
    (forall x, cb = Some x -> 0 <= x < 32768 /\ forall purchase sc info, asks 54 info sc -> info mod 256 = 21 ->
       says 1 recs (v_vid v) purchase sc x /\ forall x', says 1 recs (v_vid v) purchase sc x' -> x' = x) /\
    (cb <> None -> forall purchase sc info x', v_liveries v <> [] -> asks 54 info sc -> info mod 256 <> 21 -> ~ says 1 recs (v_vid v) purchase sc x') /\
    (cb = None -> p < 1024) /\
    Z.abs (road_speed p08 p15 cb - p) <= 3 /\ (p mod 4 = 0 -> road_speed p08 p15 cb = p).
Proof.
  intros text evs p v recs U H P N1 N2.
  assert (B : built 1 text evs v recs) by (split; [exact U|]; left; eauto). pose proof (built_one _ _ _ _ _ B) as ONE. clear B.
  rewrite <- (rev_involutive evs) in U. unfold rv_sprites in H.
  destruct (vehicle_inv 1 text (set_speed p) _ v recs (rev evs) "change_properties" O_SPEED eq_refl (speed_step p)
      ltac:(cbn [In]; intuition discriminate) ltac:(cbn [In]; intuition discriminate) U H)
    as (st & st1 & st2 & h1 & h & m & props & A & M & F & E & S & L & _ & _ & X1 & X2 & X3 & X4 & X5 & X6 & X7).
  assert (DEF : forall n x, n <> "cb_flags" -> n <> "extra_cb_flags" -> dict_get String.eqb (v_props v) n = None ->
     dict_get String.eqb [("sprite_id", 255); ("precise_max_speed", Z.min p 255); ("max_speed", Z.min (speed_value p) 255)] n = Some x ->
     defined recs (v_vid v) n x).
  { intros n x Q1 Q2 Q3 Q4. eexists. split; [rewrite E; apply in_app_iff; right; right; left; reflexivity|].
    exact (own_get _ _ _ _ _ _ _ F Q1 Q2 Q3 Q4). }
  exists (Z.min p 255), (Z.min (speed_value p) 255), (if 1024 <=? p then Some (speed_value p) else None).
  split; [apply DEF; [discriminate|discriminate|exact N2|reflexivity]|]. split; [apply DEF; [discriminate|discriminate|exact N1|reflexivity]|].
  assert (SV : 0 <= speed_value p < 32768) by (unfold speed_value; Z.to_euclidean_division_equations; lia).
  split; [lia|]. split; [lia|].
  assert (CB : 1024 <= p -> exists d, graphics_obj st1 = Some d /\ forall purchase sc info, asks 54 info sc -> forall h0,
     hrun 1 sc (HSwitch false (nm "extra_callback_info1_byte") [(21, HInt (speed_value p))] d) = Some h0 -> exists pre, reply 1 recs (v_vid v) purchase sc pre h0).
  { intros G. unfold set_speed in X2. destruct (Z.leb_spec 1024 p); [|lia].
    destruct (graphics_obj st1) as [d|] eqn:GO; [|discriminate X2]. cbn [bind] in X2. exists d. split; [reflexivity|].
    destruct (assign_put _ _ _ _ _ _ _ X1 X2) as (h2 & H2 & W2 & _ & _ & O2).
    destruct (X5 h2 H2) as (h3 & H3 & W3). rewrite <- X6 in O2.
    intros purchase sc info AS h0 HR. assert (C : callback_of 1 "change_properties" 54 CDual) by (exists 0; cbn; tauto).
    assert (exists e, entry purchase m = Some e /\ run 1 (sc_own sc) e = Some (TUser (vobj_of O_SPEED))) as (e & En & Ru).
    { destruct purchase.
      - apply (purchase_callback 1 st h3 m _ 54 CDual _ info sc eq_refl H3 M C); [|exact AS]. rewrite W3, W2. reflexivity.
      - apply (normal_callback 1 st h3 m _ 54 CDual _ info sc eq_refl H3 M C); [|exact AS]. rewrite W3, W2. reflexivity. }
    eexists. rewrite E, !app_assoc. exact (reply_obj 1 _ (v_vid v) m (s_objs st) [] e _ _ h0 purchase sc En Ru O2 HR). }
  split; [|split; [|split; [|]]].
  - intros x Q. destruct (Z.leb_spec 1024 p) as [G|G]; [|discriminate Q]. apply some_inj in Q. subst x. split; [exact SV|].
    intros purchase sc info AS I. destruct (CB G) as (d & _ & R).
    assert (HR : hrun 1 sc (HSwitch false (nm "extra_callback_info1_byte") [(21, HInt (speed_value p))] d) = Some (HInt (speed_value p))).
    { rewrite (info_switch 1 sc _ _ 21 eq_refl); [reflexivity|]. destruct AS as (_ & _ & _ & ->). exact I. }
    destruct (R purchase sc info AS _ HR) as (pre & RR). split; [exists pre; exact RR|].
    intros x' (pre' & R'). destruct (reply_unique _ _ _ _ _ _ _ _ _ ONE R' RR) as (_ & Q). now injection Q.
  - intros NC purchase sc info x' NL AS I (pre' & R'). destruct (Z.leb_spec 1024 p) as [G|G]; [|contradiction].
    destruct (CB G) as (d & GD & R). rewrite (X7 NL) in GD. apply some_inj in GD. subst d.
    destruct (livery_run 1 sc true (nm "cargo_subtype") (v_liveries v) NL) as (i & l & Hr & _).
    { intros _. exists (subtype_of (sc_related sc)). split; [exact (subtype_value 1 _ _ eq_refl)|]. apply Z.mod_pos_bound. lia. }
    destruct (R purchase sc info AS (HLayout i)) as (pre & RR).
    { rewrite (info_switch 1 sc _ _ (info mod 256) eq_refl); [|destruct AS as (_ & _ & _ & ->); reflexivity].
      cbn [dict_get]. destruct (Z.eqb_spec (info mod 256) 21); [contradiction|exact Hr]. }
    destruct (reply_unique _ _ _ _ _ _ _ _ _ ONE R' RR) as (_ & Q). discriminate Q.
  - destruct (Z.leb_spec 1024 p); [discriminate|]. intros _. lia.
  - assert (EV : forall x, x = speed_value p -> 4 * x - 2 <= p <= 4 * x + 1) by (intros x ->; unfold speed_value; Z.to_euclidean_division_equations; lia).
    specialize (EV _ eq_refl). assert (EX : p mod 4 = 0 -> 4 * speed_value p = p) by (unfold speed_value; Z.to_euclidean_division_equations; lia).
    clear - EV EX P. set (y := speed_value p) in *. clearbody y. unfold road_speed. destruct (Z.leb_spec 1024 p) as [G|G].
    + destruct (Z.eqb_spec y 0); [lia|]. split; [lia|exact EX].
    + destruct (Z.eqb_spec (Z.min y 255) 0) as [Z0|Z0]; split; intros; try specialize (EX H); lia.
Qed.

(** km/h-ish speeds that are even are exact; the length. *)
Theorem C64_road_kmhish : forall s, 0 <= s -> s mod 2 = 0 -> rv_kmhish s mod 4 = 0 /\ rv_kmhish s = 2 * s.
Proof. intros s S E. unfold rv_kmhish. Z.to_euclidean_division_equations; lia. Qed.
Lemma dset_string_nodup : forall (d : list (string * Z)) k x, NoDup (map fst d) -> NoDup (map fst (dict_set String.eqb d k x)).
Proof.
  intros d k x N. induction d as [|[a y] d IH]; cbn [dict_set map fst]; [constructor; [intros []|constructor]|].
  cbn [map fst] in N. inversion N as [|? ? N1 N2]. subst. destruct (String.eqb_spec k a) as [->|D]; cbn [map fst]; [now constructor|].
  constructor; [|exact (IH N2)]. intros I. apply N1. clear - I D. induction d as [|[b z] d IH]; cbn [dict_set map fst] in *.
  - destruct I as [I|[]]. congruence.
  - destruct (String.eqb k b); cbn [map fst] in *; [exact I|]. destruct I as [I|I]; [now left|right; exact (IH I)].
Qed.
Lemma flags_nodup : forall f m props props', set_flag_props f m props = Some props' -> NoDup (map fst props) -> NoDup (map fst props').
Proof.
  intros f m props props' H N. unfold set_flag_props in H. destruct (flag_sum f (m_callbacks m) 0) as [r|]; [|discriminate H].
  cbn [bind] in H. apply some_inj in H. subst props'. destruct (0 <? Z.land r 65280), (0 <? Z.land r 255); auto using dset_string_nodup.
Qed.
Lemma props_get : forall f m own props props' n x, set_flag_props f m props = Some props' -> NoDup (map fst props) -> n <> "cb_flags" -> n <> "extra_cb_flags" ->
  dict_get String.eqb props n = Some x -> dict_get String.eqb (merge own props') n = Some x.
Proof.
  intros f m own props props' n x F N N1 N2 P. apply merge_some; [exact (flags_nodup _ _ _ _ F N)|]. rewrite (flags_keep _ _ _ _ _ F N1 N2). exact P.
Qed.
(** Properties the program gives are in the definition. *)
Theorem C64_props : forall f text evs v recs n x, built f text evs v recs -> NoDup (map fst (v_props v)) -> n <> "cb_flags" -> n <> "extra_cb_flags" ->
  dict_get String.eqb (v_props v) n = Some x -> defined recs (v_vid v) n x.
Proof.
  intros f text evs v recs n x (U & H) N N1 N2 P. rewrite <- (rev_involutive evs) in U.
  destruct H as [(-> & p & H) | (-> & s & H)]; unfold rv_sprites, ship_sprites in H.
  - destruct (vehicle_inv 1 text (set_speed p) _ v recs (rev evs) "change_properties" O_SPEED eq_refl (speed_step p)
      ltac:(cbn [In]; intuition discriminate) ltac:(cbn [In]; intuition discriminate) U H) as (st & st1 & st2 & h1 & h & m & props & A & B & F & C & _).
    eexists. split; [rewrite C; apply in_app_iff; right; right; left; reflexivity|]. exact (props_get _ _ _ _ _ _ _ F N N1 N2 P).
  - destruct (vehicle_inv 2 text (fun st => Some st) [("sprite_id", 255); ("max_speed", s)] v recs (rev evs) "change_properties" O_SPEED eq_refl)
      as (st & st1 & st2 & h1 & h & m & props & A & B & F & C & _).
    + intros st st' Q. apply some_inj in Q. subst st'. apply step_none.
    + cbn [In]; intuition discriminate.
    + cbn [In]; intuition discriminate.
    + exact U.
    + exact H.
    + eexists. split; [rewrite C; apply in_app_iff; right; right; left; reflexivity|]. exact (props_get _ _ _ _ _ _ _ F N N1 N2 P).
Qed.
(** A length of 1..8 is written as what the vehicle is shorter by; other
    lengths, and a length beside shorten_by, are refused. *)
Theorem C64_road_length : forall l props, NoDup (map fst props) ->
  ((1 <= l <= 8 /\ dict_get String.eqb props "shorten_by" = None) <-> rv_props (Some l) props <> None) /\
  forall props' text evs v recs, rv_props (Some l) props = Some props' -> v_props v = props' -> built 1 text evs v recs ->
    defined recs (v_vid v) "shorten_by" (8 - l) /\
    forall n x, ~ In n ["shorten_by"; "cb_flags"; "extra_cb_flags"] -> dict_get String.eqb props n = Some x -> defined recs (v_vid v) n x.
Proof.
  intros l props N. unfold rv_props. split.
  - destruct (Z.leb_spec 1 l), (Z.leb_spec l 8); cbn [andb]; try (split; [lia|intros Q; contradiction]).
    destruct (dict_get String.eqb props "shorten_by"); cbn [is_some negb]; split; try discriminate; try (intros Q; contradiction).
    + intros [_ Q]; discriminate Q.
    + intros _. split; [lia|reflexivity].
  - intros props' text evs v recs E <- B. destruct ((1 <=? l) && (l <=? 8)); [|discriminate E].
    destruct (negb (is_some (dict_get String.eqb props "shorten_by"))); [|discriminate E]. apply some_inj in E.
    assert (N' : NoDup (map fst (v_props v))) by (rewrite <- E; now apply dset_string_nodup). split.
    + apply (C64_props 1 text evs v recs _ _ B N'); try discriminate. rewrite <- E, (gset String.eqb string_eqb_ok), String.eqb_refl. reflexivity.
    + intros n x I P. cbn [In] in I. apply (C64_props 1 text evs v recs _ _ B N'); try (intros Q; apply I; subst; auto 10).
      rewrite <- E, (gset String.eqb string_eqb_ok). destruct (String.eqb_spec n "shorten_by"); [exfalso; apply I; subst; auto|exact P].
Qed.
Theorem C64_ship_speed : forall text evs s v recs, apply_events 2 start evs = Some (v_manager v) -> ship_sprites text s v = Some recs ->
  dict_get String.eqb (v_props v) "max_speed" = None -> defined recs (v_vid v) "max_speed" s.
Proof.
  intros text evs s v recs U H N. rewrite <- (rev_involutive evs) in U. unfold ship_sprites in H.
  destruct (vehicle_inv 2 text (fun st => Some st) [("sprite_id", 255); ("max_speed", s)] v recs (rev evs) "change_properties" O_SPEED eq_refl)
    as (st & st1 & st2 & h1 & h & m & props & A & B & F & C & _).
  - intros st st' Q. apply some_inj in Q. subst st'. apply step_none.
  - cbn [In]; intuition discriminate.
  - cbn [In]; intuition discriminate.
  - exact U.
  - exact H.
  - eexists. split; [rewrite C; apply in_app_iff; right; right; left; reflexivity|]. apply (own_get _ _ _ _ _ _ _ F); [discriminate|discriminate|exact N|reflexivity].
Qed.
