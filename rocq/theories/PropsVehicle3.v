(** C64, continued: how trains are made, what always works, and what does not
    hold. *)
From Coq Require Import ZArith List Bool String Lia.
From Verif Require Import Base BaseFacts RecordsModel ContainerProofs IdMapProofs DecodeModel VA2Model VA2Vars ParserModel CallbackModel SpecCallback
  CallbackProofs CallbackProofs2 PropsCallback LibModel VehicleModel SpecVehicle VehicleProofs VehicleProofs2 VehicleProofs3 VehicleProofs4 PropsVehicle PropsVehicle2.
Import ListNotations.
Open Scope string_scope.
Open Scope list_scope.
Open Scope Z_scope.

(** ---- making trains ---- *)

Lemma empty_valid : forall ls, valid_liveries (empty_liveries ls) = true.
Proof.
  intros ls. unfold valid_liveries. apply forallb_forall. intros l I. destruct ls as [|l0 ls].
  - destruct I as [<- | []]. reflexivity.
  - unfold empty_liveries in I. apply in_map_iff in I as (x & <- & _). reflexivity.
Qed.
Lemma empty_some : forall ls, empty_liveries ls <> [].
Proof. now destruct ls. Qed.
Lemma empty_sprite : forall ls x l d s, livery_for (empty_liveries ls) x = Some l -> nth_error (l_sprites l) d = Some s -> s = EMPTY.
Proof.
  intros ls x l d s L S. assert (I : In l (empty_liveries ls)).
  { unfold livery_for in L. destruct (nth_error (empty_liveries ls) (Z.to_nat x)) eqn:Q; [|exact (nth_error_In _ _ L)].
    apply some_inj in L. subst. exact (nth_error_In _ _ Q). }
  assert (R : l_sprites l = repeat EMPTY 8).
  { destruct ls as [|l0 ls]; [destruct I as [<- | []]; reflexivity|]. unfold empty_liveries in I. apply in_map_iff in I as (y & <- & _). reflexivity. }
  rewrite R in S. apply nth_error_In in S. exact (repeat_spec _ _ _ S).
Qed.

Definition bare : manager := match no_callbacks 0 with Some m => m | None => start end.
Definition bare_events : list event := [EAssign "graphics" (ARaw None)].
Lemma bare_made : no_callbacks 0 = Some bare /\ apply_events 0 start bare_events = Some bare /\ make_switch 0 bare = None.
Proof. repeat split; reflexivity. Qed.

(** What __init__ makes. *)
Lemma train_new_inv : forall id sp w length sounds ls m pur text props t, train_new id sp w length sounds ls m pur text props = Some t ->
  valid_liveries ls = true /\ t_id t = id /\ t_speed t = sp /\ t_weight t = w /\ t_length t = length /\ t_sounds t = sounds /\ t_liveries t = ls /\
  t_purchase t = pur /\ t_text t = text /\ t_manager t = m /\
  ((match length with Some n => n <= 8 | None => True end /\ t_head t = ls /\ t_parts t = []) \/
   (exists n mid art, length = Some n /\ 8 < n <= 24 /\ t_head t = empty_liveries ls /\
     t_parts t = [mk_part (PMid id) ls bare (with_shorten mid (copied (dict_set String.eqb props "shorten_by" art) (dict_set String.eqb props "shorten_by" art)));
                  mk_part (PTail id) (empty_liveries ls) bare (with_shorten (Some art) (copied (dict_set String.eqb props "shorten_by" art) (dict_set String.eqb props "shorten_by" art)))])).
Proof.
  intros id sp w length sounds ls m pur text props t H. unfold train_new in H. destruct (valid_liveries ls) eqn:V; [|discriminate H].
  destruct (is_some (dict_get String.eqb props "engine_class")); [|discriminate H].
  destruct (negb (is_some length && is_some (dict_get String.eqb props "shorten_by"))); [|discriminate H].
  unfold calc_articulation in H. destruct length as [n|].
  - destruct (Z.leb_spec n 24); [|discriminate H]. destruct (Z.leb_spec n 8).
    + cbn [bind] in H. apply some_inj in H. subst t. repeat split; try reflexivity. left. auto.
    + cbn [bind] in H. unfold auto_parts in H. rewrite (proj1 bare_made) in H. cbn [bind] in H.
      destruct (n mod 2 =? 1); cbn [bind] in H; apply some_inj in H; subst t; repeat split; try reflexivity; right; exists n; do 2 eexists; (split; [reflexivity|]); split; [lia| |lia|]; split; reflexivity.
  - cbn [bind] in H. apply some_inj in H. subst t. repeat split; try reflexivity. left. auto.
Qed.

(** Up to a length of 8 the train itself shows its liveries. *)
Theorem C64_short : forall rid text evs id sp w length sounds ls m pur ts props t recs sc info dir,
  train_new id sp w length sounds ls m pur ts props = Some t -> match length with Some n => n <= 8 | None => True end -> ls <> [] ->
  train_built rid text evs t recs -> asks 0 info sc -> 0 <= dir < 8 ->
  exists l s, livery_for ls (subtype_of (sc_own sc)) = Some l /\ nth_error (l_sprites l) (Z.to_nat dir) = Some s /\
    shows 0 recs (rid id) false sc dir s /\ forall s', shows 0 recs (rid id) false sc dir s' -> s' = s.
Proof.
  intros rid text evs id sp w length sounds ls m pur ts props t recs sc info dir T S N B A D.
  destruct (train_new_inv _ _ _ _ _ _ _ _ _ _ _ T) as (V & E1 & _ & _ & _ & _ & _ & _ & _ & _ & [(_ & H & P) | (n & mid & art & E & L & _)]).
  2:{ subst length. lia. }
  rewrite <- H, <- E1. apply (C64_train_livery rid text evs t recs sc info dir B); rewrite ?H; try assumption.
  unfold distinct. rewrite P. cbn [map]. constructor; [intros []|constructor].
Qed.

(** A longer one is three vehicles: the middle one shows the liveries, by the
    subtype of the first; the others show nothing.  In the purchase list the
    first livery is shown from the side. *)
Theorem C64_long : forall rid text evs id sp w n sounds ls m pur ts props t recs,
  train_new id sp w (Some n) sounds ls m pur ts props = Some t -> 8 < n -> ls <> [] -> train_built rid text evs t recs -> distinct rid t ->
  exists mid tail, map p_id (t_parts t) = [mid; tail] /\
   (forall sc info dir, asks 0 info sc -> 0 <= dir < 8 ->
     (exists l s, livery_for ls (sc_other sc (-1) 0xF2 mod 256) = Some l /\ nth_error (l_sprites l) (Z.to_nat dir) = Some s /\
        shows 0 recs (rid mid) false sc dir s /\ forall s', shows 0 recs (rid mid) false sc dir s' -> s' = s) /\
     (shows 0 recs (rid id) false sc dir EMPTY /\ forall s', shows 0 recs (rid id) false sc dir s' -> s' = EMPTY) /\
     (shows 0 recs (rid tail) false sc dir EMPTY /\ forall s', shows 0 recs (rid tail) false sc dir s' -> s' = EMPTY) /\
     (pur = None -> exists l s, nth_error ls 0 = Some l /\ nth_error (l_sprites l) 6 = Some s /\
        shows 0 recs (rid id) true sc dir s /\ forall s', shows 0 recs (rid id) true sc dir s' -> s' = s)) /\
   (forall purchase sc info, asks 22 info sc -> 1 <= info mod 256 ->
      let x := if info mod 256 =? 1 then rid mid else if info mod 256 =? 2 then rid tail else 0x7FFF in
      says 0 recs (rid id) purchase sc x /\ forall x', says 0 recs (rid id) purchase sc x' -> x' = x).
Proof.
  intros rid text evs id sp w n sounds ls m pur ts props t recs T G N B DI.
  destruct (train_new_inv _ _ _ _ _ _ _ _ _ _ _ T) as (V & E1 & _ & _ & EL & _ & ES & EP & _ & _ & [(L & _) | (n' & mid & art & E & L & H & P)]); [lia|].
  apply some_inj in E. subst n'.
  match type of P with _ = [?a; ?b] => set (pm := a) in P; set (pt := b) in P end.
  exists (p_id pm), (p_id pt). split; [rewrite P; reflexivity|]. split.
  - intros sc info dir A D. split; [|split; [|split]].
    + apply (C64_train_part rid text evs t recs 0 pm bare_events sc info dir B DI); auto.
      rewrite P. reflexivity.
    + rewrite <- E1. destruct (C64_train_livery rid text evs t recs sc info dir B DI) as (l & s & S1 & S2 & S3 & S4); rewrite ?H; auto using empty_some, empty_valid.
      rewrite H in S1. pose proof (empty_sprite _ _ _ _ _ S1 S2). subst s. split; assumption.
    + destruct (C64_train_part rid text evs t recs 1 pt bare_events sc info dir B DI) as (l & s & S1 & S2 & S3 & S4); auto.
      * rewrite P. reflexivity.
      * apply empty_some.
      * apply empty_valid.
      * pose proof (empty_sprite _ _ _ _ _ S1 S2). subst s. split; assumption.
    + intros ->. destruct ls as [|l ls]; [contradiction|]. assert (Ll : List.length (l_sprites l) = 8%nat).
      { cbn [valid_liveries forallb] in V. apply andb_true_iff in V as [V _]. apply Z.eqb_eq in V. unfold len in V. lia. }
      destruct (nth_error (l_sprites l) 6) as [s|] eqn:S6; [|apply nth_error_None in S6; lia].
      exists l, s. split; [reflexivity|]. split; [exact S6|]. rewrite <- E1.
      apply (proj2 (C64_train_purchase rid text evs t recs sc info dir B DI A) l n s); auto. rewrite ES. reflexivity.
  - intros purchase sc info A POS x. rewrite <- E1.
    assert (Ex : x = match nth_error (t_parts t) (Z.to_nat (info mod 256 - 1)) with Some p => rid (p_id p) | None => 0x7FFF end).
    { rewrite P. unfold x. destruct (Z.eqb_spec (info mod 256) 1) as [->|Q1]; [reflexivity|]. destruct (Z.eqb_spec (info mod 256) 2) as [->|Q2]; [reflexivity|].
      replace (Z.to_nat (info mod 256 - 1)) with (S (S (Z.to_nat (info mod 256 - 3)))) by lia. cbn [nth_error]. destruct (Z.to_nat (info mod 256 - 3)); reflexivity. }
    rewrite Ex. apply (C64_train_articulated rid text evs t recs purchase sc info B DI); auto. rewrite P. discriminate.
Qed.

(** Lengths: what is written is what C38 is about. *)
Definition shape (t : train_v) : train :=
  mkTrain (t_length t) (dict_get String.eqb (t_props t) "shorten_by") (map (fun p => dict_get String.eqb (p_props p) "shorten_by") (t_parts t)).
Lemma with_shorten_get : forall s props, dict_get String.eqb (with_shorten s props) "shorten_by" =
  match s with Some x => Some x | None => dict_get String.eqb props "shorten_by" end.
Proof. intros [x|] props; [|reflexivity]. unfold with_shorten. now rewrite (gset String.eqb string_eqb_ok), String.eqb_refl. Qed.
Lemma copied_get : forall own props, dict_get String.eqb (copied own props) "shorten_by" = None.
Proof. intros own props. unfold copied. destruct (dict_get String.eqb own "misc_flags"), (dict_get String.eqb props "track_type"), (dict_get String.eqb props "power"); reflexivity. Qed.
Theorem C64_shape : forall id sp w length sounds ls m pur ts props t, train_new id sp w length sounds ls m pur ts props = Some t ->
  train_init length (dict_get String.eqb props "shorten_by") = Some (shape t).
Proof.
  intros id sp w length sounds ls m pur ts props t H. unfold train_new in H. destruct (valid_liveries ls); [|discriminate H].
  destruct (is_some (dict_get String.eqb props "engine_class")); [|discriminate H].
  destruct (negb (is_some length && is_some (dict_get String.eqb props "shorten_by"))) eqn:X; [|discriminate H].
  unfold train_init. replace (negb match length, dict_get String.eqb props "shorten_by" with Some _, Some _ => true | _, _ => false end) with true
    by (destruct length, (dict_get String.eqb props "shorten_by"); reflexivity || discriminate X).
  destruct (calc_articulation length length (dict_get String.eqb props "shorten_by")) as [[mid [a|]]|]; cbn [bind] in H |- *; [| |discriminate H].
  - unfold auto_parts in H. rewrite (proj1 bare_made) in H. cbn [bind] in H. apply some_inj in H. subst t. unfold shape. cbn [t_length t_props t_parts map p_props].
    rewrite !with_shorten_get, copied_get, (gset String.eqb string_eqb_ok), String.eqb_refl. now destruct mid.
  - apply some_inj in H. subst t. unfold shape. cbn [t_length t_props t_parts map]. now rewrite with_shorten_get.
Qed.
(** Every accepted part goes to the end of the train with its own liveries and
    callbacks. *)
Theorem C64_add_part : forall id ls m length weight props t t', add_articulated_part false id ls m length weight props t = Some t' ->
  add_part (shape t) length (dict_get String.eqb props "shorten_by") = Some (shape t') /\
  t_id t' = t_id t /\ t_head t' = t_head t /\ t_liveries t' = t_liveries t /\ t_props t' = t_props t /\ t_manager t' = t_manager t /\
  exists ps, t_parts t' = t_parts t ++ ps /\
   ((match length with Some n => n <= 8 | None => True end -> exists props', ps = [mk_part id ls m props']) /\
    (match length with Some n => 8 < n | None => False end -> exists p1 p2 p3, ps = [mk_part id (empty_liveries ls) m p1; mk_part (PMid id) ls bare p2; mk_part (PTail id) (empty_liveries ls) bare p3])).
Proof.
  intros id ls m length weight props t t' H. unfold add_articulated_part in H. cbn [orb] in H.
  match type of H with (if ?c then _ else _) = _ => destruct c eqn:C; [|discriminate H] end.
  apply andb_true_iff in C as [C _]. apply andb_true_iff in C as [_ C].
  set (props1 := match weight with Some _ => _ | None => props end) in H.
  assert (SB : dict_get String.eqb props1 "shorten_by" = dict_get String.eqb props "shorten_by").
  { unfold props1. destruct weight; [|reflexivity]. now rewrite !(gset String.eqb string_eqb_ok). }
  rewrite SB in H. unfold add_part. replace (negb match length, dict_get String.eqb props "shorten_by" with Some _, Some _ => true | _, _ => false end) with true
    by (destruct length, (dict_get String.eqb props "shorten_by"); reflexivity || discriminate C).
  cbn [shape tr_length tr_head tr_parts].
  destruct (calc_articulation (t_length t) length (dict_get String.eqb props "shorten_by")) as [[mid art]|] eqn:CA; cbn [bind] in H |- *; [|discriminate H].
  assert (CASE : match length with Some n => n <= 8 | None => True end <-> art = None).
  { unfold calc_articulation in CA. destruct length as [n|]; [|apply some_inj in CA; apply pair_inj in CA as [_ <-]; tauto].
    destruct (n <=? 24); [|discriminate CA]. destruct (Z.leb_spec n 8); [apply some_inj in CA; apply pair_inj in CA as [_ <-]; tauto|].
    destruct (t_length t) as [o|]; cbn [bind] in CA; [|discriminate CA]. destruct (o mod 2 =? 1); apply some_inj in CA; apply pair_inj in CA as [_ <-]; split; (lia || discriminate). }
  destruct art as [a|].
  - unfold auto_parts in H. rewrite (proj1 bare_made) in H. cbn [bind] in H. apply some_inj in H. subst t'. unfold shape. cbn [t_length t_props t_parts t_id t_head t_liveries t_manager].
    rewrite map_app. cbn [map p_props]. rewrite !with_shorten_get, copied_get. split; [now destruct mid|]. repeat split; try reflexivity.
    eexists. split; [reflexivity|]. split; [intros Q; apply CASE in Q; discriminate|]. intros _. do 3 eexists. reflexivity.
  - cbn [bind] in H. apply some_inj in H. subst t'. unfold shape. cbn [t_length t_props t_parts t_id t_head t_liveries t_manager].
    rewrite map_app. cbn [map p_props]. rewrite with_shorten_get, SB. split.
    { repeat f_equal. unfold calc_articulation in CA. destruct length as [n|]; [|apply some_inj in CA; apply pair_inj in CA as [<- _]; now destruct (dict_get String.eqb props "shorten_by")].
      destruct (n <=? 24); [|discriminate CA]. destruct (n <=? 8); [apply some_inj in CA; apply pair_inj in CA as [<- _]; reflexivity|].
      destruct (t_length t) as [o|]; cbn [bind] in CA; [|discriminate CA]. destruct (o mod 2 =? 1); discriminate CA. }
    repeat split; try reflexivity. eexists. split; [reflexivity|]. split; [intros _; eexists; reflexivity|].
    intros Q. exfalso. destruct length as [n|]; [|exact Q]. pose proof (proj2 CASE eq_refl). lia.
Qed.
(** The properties of the train and of its parts are in their definitions. *)
Theorem C64_train_props : forall rid text evs t recs n x, train_built rid text evs t recs -> n <> "cb_flags" -> n <> "extra_cb_flags" ->
  (NoDup (map fst (t_props t)) -> dict_get String.eqb (t_props t) n = Some x -> defined recs (rid (t_id t)) n x) /\
  forall i p pevs, nth_error (t_parts t) i = Some p -> apply_events 0 start pevs = Some (p_manager p) ->
    NoDup (map fst (p_props p)) -> dict_get String.eqb (p_props p) n = Some x -> defined recs (rid (p_id p)) n x.
Proof.
  intros rid text evs t recs n x (U & H0) N1 N2. rewrite <- (rev_involutive evs) in U.
  destruct (train_inv _ _ _ _ _ U H0) as (p & st & h & m & props & ec & r & TP & H & M & F & _ & PR & E & _). split.
  - intros N P. eexists. split; [rewrite E; apply in_app_iff; left; apply in_app_iff; right; apply in_app_iff; right; right; left; reflexivity|].
    exact (props_get _ _ _ _ _ _ _ F N N1 N2 P).
  - intros i q pevs NP UP N P. destruct (parts_nth _ _ _ _ _ _ _ PR NP) as (a & pl & b & Er & PP). rewrite <- (rev_involutive pevs) in UP.
    destruct (part_inv _ _ _ _ _ _ UP PP) as (st' & h' & m' & props' & _ & _ & F' & El & _).
    eexists. split.
    + rewrite E, Er, El. apply in_app_iff. right. right. apply in_app_iff. right. apply in_app_iff. left. apply in_app_iff. left. apply in_app_iff. right. left. reflexivity.
    + exact (props_get _ _ _ _ _ _ _ F' N N1 N2 P).
Qed.

(** ---- what always works ---- *)

Lemma flags_total : forall f evs m props, apply_events f start evs = Some m -> exists props', set_flag_props f m props = Some props'.
Proof.
  intros f evs m props He. pose proof (tracks_start _ _ _ He) as T.
  assert (Hin : forall k o, In (k, o) (m_callbacks m) -> dict_get Z.eqb (m_callbacks m) k = Some o).
  { intros k o I. pose proof (t_nodup _ _ _ T) as N. clear -I N. induction (m_callbacks m) as [|[k0 a] l IH]; [destruct I|].
    cbn in N. apply NoDup_cons_iff in N as [N1 N2]. cbn [dict_get]. destruct I as [I|I].
    - injection I as -> ->. rewrite Z.eqb_refl. reflexivity.
    - destruct (Z.eqb_spec k k0) as [->|]; [|exact (IH I N2)]. exfalso. apply N1. apply (in_map fst l _ I). }
  assert (Hk : forall k o, In (k, o) (m_callbacks m) -> k <> 0 -> exists n, callback_of f n k (c_class o)).
  { intros k o I Hz. destruct (t_known _ _ _ T _ _ (Hin _ _ I)) as (n & Hd). exists n.
    apply descriptor_spec in Hd as [Hd|(_ & Q & _)]; [exact Hd|contradiction]. }
  destruct (flag_sum_spec f (m_callbacks m) 0 ltac:(lia) Hk) as (r & Er & _). unfold set_flag_props. rewrite Er. cbn [bind]. eauto.
Qed.
Lemma put_total : forall f n o h st d v, descriptor f n = Some d -> (exists st', put f (EAssign n (ARaw v)) o h st = Some st') /\
  forall p, exists st', put f (EField n p v) o h st = Some st'.
Proof.
  intros f n o h st d v D. split; [|intros p]; unfold put; cbn [apply_event]; rewrite D; cbn [bind descr_set]; [eauto|].
  destruct (descr_get d (m_callbacks (s_man st))). cbn [bind]. eauto.
Qed.
Lemma vehicle_descriptors : forall f, is_vehicle_feature f = true ->
  (exists d, descriptor f "graphics" = Some d) /\ (exists d, descriptor f "additional_text" = Some d) /\ (exists d, descriptor f "cargo_subtype_text" = Some d)
  /\ (exists d, descriptor f "change_properties" = Some d) /\ (exists d, descriptor f "sound_effect" = Some d).
Proof. intros f H. destruct (vehicle_cases f H) as [-> | [-> | [-> | ->]]]; repeat split; eexists; reflexivity. Qed.
Lemma gen_purchase_total : forall f p st, is_vehicle_feature f = true -> exists st', gen_purchase f p st = Some st'.
Proof.
  intros f [s|] st V; cbn [gen_purchase]; [|eauto]. destruct (vehicle_descriptors f V) as ((d & D) & _).
  exact (proj2 (put_total f _ _ _ _ d _ D) true).
Qed.
Lemma set_text_total : forall f text t st, is_vehicle_feature f = true -> exists st', set_text f text t st = Some st'.
Proof.
  intros f text [s|] st V; cbn [set_text]; [|eauto]. destruct (vehicle_descriptors f V) as (_ & (d & D) & _). exact (proj1 (put_total f _ _ _ _ d _ D)).
Qed.
Lemma set_names_total : forall f text ls st, is_vehicle_feature f = true -> exists st', set_names f text ls st = Some st'.
Proof.
  intros f text ls st V. unfold set_names. destruct (1 <? len ls); [|eauto]. destruct (vehicle_descriptors f V) as (_ & _ & (d & D) & _). exact (proj1 (put_total f _ _ _ _ d _ D)).
Qed.
Lemma make_map_total : forall f id st h, is_vehicle_feature f = true -> hist f st h -> fst (wanted CGraphics "graphics" h) <> None ->
  ~ (set_for CDual (wanted CDual "change_properties" h) /\ exists n p c, property_of f n p c /\ set_for c (wanted_prop c n h)) ->
  exists st', make_map f id st = Some st'.
Proof.
  intros f id st h V H G N. unfold make_map. destruct (make_switch f (s_man st)) as [m|] eqn:M; [cbn [bind]; eauto|]. exfalso.
  destruct (vehicle_in f V) as (_ & _ & NI). apply (proj1 (C47_total f (rev h) (s_man st) NI H)) in M. rewrite rev_involutive in M.
  destruct M as [[_ M]|[_ M]]; [exact (G M)|exact (N M)].
Qed.

(** Liveries of eight sprites and graphics of some kind are all it takes,
    unless the program answers single properties and change_properties (which
    fast road vehicles have) at the same time. *)
Theorem C64_builds : forall f text evs p v, f = 1 \/ f = 2 -> apply_events f start evs = Some (v_manager v) -> valid_liveries (v_liveries v) = true ->
  v_liveries v <> [] \/ fst (wanted CGraphics "graphics" (rev evs)) <> None ->
  ((f = 1 /\ 1024 <= p) \/ set_for CDual (wanted CDual "change_properties" (rev evs)) -> forall n q c, property_of f n q c -> ~ set_for c (wanted_prop c n (rev evs))) ->
  exists recs, (if f =? 1 then rv_sprites text p v else ship_sprites text p v) = Some recs.
Proof.
  intros f text evs p v F U VL G NC. assert (V : is_vehicle_feature f = true) by (destruct F; subst; reflexivity).
  assert (X : forall own extra, (forall st h, hist f st h -> fst (wanted CGraphics "graphics" h) <> None ->
       (forall c, wanted c "change_properties" h = wanted c "change_properties" (rev evs)) ->
       exists st' h', extra st = Some st' /\ hist f st' h' /\ (forall c m, m <> "change_properties" -> wanted c m h' = wanted c m h) /\ (forall c m, wanted_prop c m h' = wanted_prop c m h) /\
         ((forall c, wanted c "change_properties" h' = wanted c "change_properties" (rev evs)) \/ (f = 1 /\ 1024 <= p))) ->
     exists recs, vehicle_sprites f text extra own v = Some recs).
  { intros own extra EX. unfold vehicle_sprites. rewrite VL. rewrite <- (rev_involutive evs) in U.
    destruct (gen_purchase_total f (v_purchase v) (mk_vst [] [] (v_manager v)) V) as (s1 & E1). rewrite E1. cbn [bind].
    assert (H0 : hist f (mk_vst [] [] (v_manager v)) (rev evs)) by exact U.
    destruct (purchase_put _ _ _ _ _ H0 E1) as (h1 & A1 & B1 & C1 & D1 & F1 & _).
    assert (exists s2 h2, (match v_liveries v with [] => Some s1 | ls => put f (EField "graphics" false (new O_GRAPHICS)) O_GRAPHICS (livery_graphics true (nm "cargo_subtype") ls) s1 end) = Some s2
      /\ hist f s2 h2 /\ fst (wanted CGraphics "graphics" h2) <> None /\ (forall c m, m <> "graphics" -> wanted c m h2 = wanted c m h1) /\ (forall c m, wanted_prop c m h2 = wanted_prop c m h1))
      as (s2 & h2 & E2 & A2 & G2 & D2 & F2).
    { destruct (v_liveries v) as [|l ls].
      - exists s1, h1. split; [reflexivity|]. split; [exact A1|]. split; [|split; reflexivity]. rewrite B1. destruct G as [G|G]; [contradiction|exact G].
      - destruct (vehicle_descriptors f V) as ((d & D) & _).
        destruct (proj2 (put_total f _ O_GRAPHICS (livery_graphics true (nm "cargo_subtype") (l :: ls)) s1 d (new O_GRAPHICS) D) false) as (s2 & E2).
        destruct (graphics_put _ _ _ _ _ A1 E2) as (h2 & A & B & C & D' & _). exists s2, h2. split; [exact E2|]. split; [exact A|]. split; [rewrite B; discriminate|]. split; assumption. }
    rewrite E2. cbn [bind]. destruct (set_text_total f text (v_text v) s2 V) as (s3 & E3). rewrite E3. cbn [bind].
    destruct (text_put _ _ _ _ _ _ A2 E3) as (h3 & A3 & B3 & C3 & D3 & _).
    destruct (EX s3 h3 A3) as (s4 & h4 & E4 & A4 & C4 & D4 & CH).
    { now rewrite C3 by discriminate. }
    { intros c. rewrite C3, D2, D1 by discriminate. reflexivity. }
    rewrite E4. cbn [bind]. destruct (set_names_total f text (v_liveries v) s4 V) as (s5 & E5). rewrite E5. cbn [bind].
    destruct (names_put _ _ _ _ _ _ A4 E5) as (h5 & A5 & B5 & C5 & D5 & _).
    destruct (flags_total f (rev h5) (s_man s5) (v_props v) A5) as (props & E6). rewrite E6. cbn [bind]. cbv zeta.
    match goal with |- context [make_map f ?i ?s] => destruct (make_map_total f i s h5 V) as (s7 & E7) end.
    - destruct (v_liveries v); exact A5.
    - rewrite C5 by discriminate. rewrite C4 by discriminate. rewrite C3 by discriminate. exact G2.
    - intros [S1 (n & q & c & P1 & P2)]. rewrite D5, D4, D3, F2, F1 in P2. rewrite C5 in S1 by discriminate.
      refine (NC _ n q c P1 P2). destruct CH as [CH|CH]; [right; rewrite <- CH; exact S1|left; exact CH].
    - rewrite E7. cbn [bind]. eauto. }
  destruct F as [-> | ->]; cbn [Z.eqb Pos.eqb].
  - unfold rv_sprites. apply X. intros st h H G1 W. unfold set_speed. destruct (Z.leb_spec 1024 p) as [L|L].
    + assert (exists d, graphics_obj st = Some d) as (d & GO).
      { unfold graphics_obj. rewrite (graphics_read 1 st h eq_refl H). destruct (fst (wanted CGraphics "graphics" h)); [cbn [bind]; eauto|contradiction]. }
      rewrite GO. cbn [bind]. destruct (vehicle_descriptors 1 eq_refl) as (_ & _ & _ & (dd & D) & _).
      destruct (proj1 (put_total 1 _ O_SPEED (HSwitch false (nm "extra_callback_info1_byte") [(21, HInt (speed_value p))] d) st dd (new O_SPEED) D)) as (st' & E).
      destruct (assign_put _ _ _ _ _ _ _ H E) as (h' & A & B & C & D' & _). exists st', h'. split; [exact E|]. split; [exact A|]. split; [exact C|]. split; [exact D'|]. right. auto.
    + exists st, h. repeat split; try reflexivity; auto.
  - unfold ship_sprites. apply X. intros st h H G1 W. exists st, h. repeat split; try reflexivity; auto.
Qed.

Lemma make_graphics_total : forall ls pos st h, hist 0 st h -> ls <> [] \/ fst (wanted CGraphics "graphics" h) <> None ->
  exists st' h', make_graphics 0 ls pos st = Some st' /\ hist 0 st' h' /\ fst (wanted CGraphics "graphics" h') <> None /\
   (forall c m, m <> "graphics" -> wanted c m h' = wanted c m h) /\ (forall c m, wanted_prop c m h' = wanted_prop c m h).
Proof.
  intros ls pos st h H G. destruct ls as [|l ls].
  - exists st, h. split; [reflexivity|]. split; [exact H|]. split; [|split; reflexivity]. destruct G as [G|G]; [contradiction|exact G].
  - assert (exists st', make_graphics 0 (l :: ls) pos st = Some st') as (st' & E).
    { cbn [make_graphics]. destruct (vehicle_descriptors 0 eq_refl) as ((d & D) & _). apply (proj2 (put_total 0 _ _ _ _ d _ D)). }
    destruct (make_graphics_put _ _ _ _ _ _ H E) as (h' & A & B & C & D & F & _). exists st', h'. split; [exact E|]. split; [exact A|].
    split; [rewrite B; discriminate|]. split; assumption.
Qed.
(** The same for a train and each of its parts. *)
Definition part_fine (p : part) : Prop := exists evs, apply_events 0 start evs = Some (p_manager p) /\
  (p_liveries p <> [] \/ fst (wanted CGraphics "graphics" (rev evs)) <> None) /\
  ~ (set_for CDual (wanted CDual "change_properties" (rev evs)) /\ exists n q c, property_of 0 n q c /\ set_for c (wanted_prop c n (rev evs))).
Lemma parts_total : forall rid ec ps pos, (forall p, In p ps -> part_fine p) -> exists r, parts_records rid ec pos ps = Some r.
Proof.
  intros rid ec ps. induction ps as [|p ps IH]; intros pos H; cbn [parts_records]; [eauto|].
  destruct (H p (or_introl eq_refl)) as (evs & U & G & N). rewrite <- (rev_involutive evs) in U.
  assert (H0 : hist 0 (mk_vst [] [] (p_manager p)) (rev evs)) by exact U.
  destruct (make_graphics_total (p_liveries p) pos _ _ H0 G) as (s1 & h1 & E1 & A1 & G1 & C1 & D1).
  unfold part_records. rewrite E1. cbn [bind]. destruct (flags_total 0 (rev h1) (s_man s1) (p_props p) A1) as (props & E2). rewrite E2. cbn [bind].
  match goal with |- context [make_map 0 ?i ?s] => destruct (make_map_total 0 i s h1 eq_refl A1 G1) as (s2 & E3) end.
  - rewrite C1 by discriminate. intros [S (n & q & c & P1 & P2)]. rewrite D1 in P2. apply N. split; [exact S|]. eauto.
  - rewrite E3. cbn [bind]. destruct (IH (pos + 1)) as (r & E4); [intros q I; apply H; now right|]. rewrite E4. cbn [bind]. eauto.
Qed.
Theorem C64_train_builds : forall rid text evs t, apply_events 0 start evs = Some (t_manager t) -> valid_liveries (t_liveries t) = true ->
  t_head t <> [] \/ fst (wanted CGraphics "graphics" (rev evs)) <> None -> dict_get String.eqb (t_props t) "engine_class" <> None ->
  (t_parts t = [] \/ dict_get String.eqb (t_props t) "is_dual_headed" = None \/ dict_get String.eqb (t_props t) "is_dual_headed" = Some 0) ->
  ~ (set_for CDual (wanted CDual "change_properties" (rev evs)) /\ exists n q c, property_of 0 n q c /\ set_for c (wanted_prop c n (rev evs))) ->
  (forall p, In p (t_parts t) -> part_fine p) ->
  exists recs, train_sprites rid text t = Some recs.
Proof.
  intros rid text evs t U VL G EC DH NC PF. unfold train_sprites.
  replace (negb (truthy (t_props t) "is_dual_headed" && negb (len (t_parts t) =? 0))) with true
    by (destruct DH as [-> | DH]; [destruct (truthy (t_props t) "is_dual_headed"); reflexivity|]; unfold truthy; now destruct DH as [-> | ->]).
  assert (exists p, train_purchase t = Some p) as (p & EP).
  { unfold train_purchase. destruct (t_purchase t) as [s|]; [eauto|]. destruct (t_liveries t) as [|l ls]; [eauto|].
    destruct (8 <? _); [|eauto]. cbn [valid_liveries forallb] in VL. apply andb_true_iff in VL as [L _]. apply Z.eqb_eq in L. unfold len in L.
    destruct (nth_error (l_sprites l) 6) eqn:S6; [cbn [bind]; eauto|]. apply nth_error_None in S6. lia. }
  rewrite EP. cbn [bind]. destruct (gen_purchase_total 0 p (mk_vst [] [] (t_manager t)) eq_refl) as (s1 & E1). rewrite E1. cbn [bind].
  rewrite <- (rev_involutive evs) in U. assert (H0 : hist 0 (mk_vst [] [] (t_manager t)) (rev evs)) by exact U.
  destruct (purchase_put _ _ _ _ _ H0 E1) as (h1 & A1 & B1 & C1 & D1 & F1 & _).
  destruct (make_graphics_total (t_head t) 0 s1 h1 A1) as (s2 & h2 & E2 & A2 & G2 & C2 & D2); [rewrite B1; exact G|].
  rewrite E2. cbn [bind]. destruct (set_text_total 0 text (t_text t) s2 eq_refl) as (s3 & E3). rewrite E3. cbn [bind].
  destruct (text_put _ _ _ _ _ _ A2 E3) as (h3 & A3 & B3 & C3 & D3 & _).
  destruct (set_names_total 0 text (t_liveries t) s3 eq_refl) as (s4 & E4). rewrite E4. cbn [bind].
  destruct (names_put _ _ _ _ _ _ A3 E4) as (h4 & A4 & B4 & C4 & D4 & _).
  assert (G4 : fst (wanted CGraphics "graphics" h4) <> None) by (rewrite C4, C3 by discriminate; exact G2).
  assert (exists s5, set_sounds (t_sounds t) s4 = Some s5) as (s5 & E5).
  { unfold set_sounds. destruct (t_sounds t) as [|e l]; [eauto|].
    assert (exists d, graphics_obj s4 = Some d) as (d & GO).
    { unfold graphics_obj. rewrite (graphics_read 0 s4 h4 eq_refl A4). destruct (fst (wanted CGraphics "graphics" h4)); [cbn [bind]; eauto|contradiction]. }
    rewrite GO. cbn [bind]. destruct (vehicle_descriptors 0 eq_refl) as (_ & _ & _ & _ & (dd & D)). exact (proj1 (put_total 0 _ _ _ _ dd _ D)). }
  rewrite E5. cbn [bind]. destruct (sounds_put _ _ _ _ A4 E5) as (h5 & A5 & B5 & C5 & D5 & _).
  assert (exists s6, set_parts rid (t_parts t) s5 = Some s6) as (s6 & E6).
  { unfold set_parts. destruct (t_parts t) as [|q l]; [eauto|]. assert (exists d, descriptor 0 "articulated_part" = Some d) as (dd & D) by (eexists; reflexivity).
    exact (proj1 (put_total 0 _ _ _ _ dd _ D)). }
  rewrite E6. cbn [bind]. destruct (parts_put _ _ _ _ _ A5 E6) as (h6 & A6 & B6 & C6 & D6 & _).
  destruct (flags_total 0 (rev h6) (s_man s6) (t_props t) A6) as (props & E7). rewrite E7. cbn [bind]. cbv zeta.
  match goal with |- context [make_map 0 ?i ?s] => destruct (make_map_total 0 i s h6 eq_refl A6) as (s7 & E8) end.
  - rewrite C6, C5 by discriminate. exact G4.
  - intros [S1 (n & q & c & P1 & P2)]. rewrite D6, D5, D4, D3, D2, F1 in P2. rewrite C6, C5, C4, C3, C2, D1 in S1 by discriminate. apply NC. split; [exact S1|]. eauto.
  - rewrite E8. cbn [bind]. destruct (dict_get String.eqb (t_props t) "engine_class") as [ec|]; [|contradiction]. cbn [bind].
    destruct (parts_total rid [("engine_class", ec)] (t_parts t) 1 PF) as (r & ER). rewrite ER. cbn [bind]. eauto.
Qed.

(** ---- what does not hold ---- *)

(** A train longer than 8 without liveries cannot be written, whatever graphics
    the program sets: its middle part has none. *)
Theorem C64_long_without_liveries_refuted : forall rid text id sp w n sounds m pur ts props t,
  train_new id sp w (Some n) sounds [] m pur ts props = Some t -> 8 < n -> train_sprites rid text t = None.
Proof.
  intros rid text id sp w n sounds m pur ts props t T G.
  destruct (train_new_inv _ _ _ _ _ _ _ _ _ _ _ T) as (_ & _ & _ & _ & _ & _ & _ & _ & _ & _ & [(L & _) | (n' & mid & art & _ & _ & _ & P)]); [lia|].
  destruct (train_sprites rid text t) as [recs|] eqn:E; [|reflexivity]. exfalso. unfold train_sprites in E.
  destruct (negb _); [|discriminate E].
  repeat match type of E with bind ?x _ = Some _ => destruct x as [?|] eqn:?; [|discriminate E]; cbn [bind] in E; cbv zeta in E end.
  match goal with H : parts_records _ _ _ _ = Some _ |- _ => rewrite P in H; cbn [parts_records] in H end.
  match goal with H : bind ?x _ = Some _ |- _ => destruct x as [?|] eqn:Q; [|discriminate H]; clear H end.
  unfold part_records in Q. cbn [p_liveries p_manager make_graphics p_props bind s_man] in Q.
  match type of Q with bind ?x _ = Some _ => destruct x as [?|] eqn:?; [|discriminate Q]; cbn [bind] in Q end.
  unfold make_map in Q. cbn [emit s_man] in Q. rewrite (proj2 (proj2 bare_made)) in Q. discriminate Q.
Qed.

(** A part given with a weight gets the weight of the train. *)
Theorem C64_part_weight_refuted : forall id ls m length w props t t', add_articulated_part false id ls m length (Some w) props t = Some t' ->
  match length with Some n => n <= 8 | None => True end ->
  exists p, t_parts t' = t_parts t ++ [p] /\ dict_get String.eqb (p_props p) "weight_low" = Some (t_weight t mod 256) /\ dict_get String.eqb (p_props p) "weight_high" = Some (t_weight t / 256).
Proof.
  intros id ls m length w props t t' H L. unfold add_articulated_part in H. cbn [orb] in H.
  match type of H with (if ?c then _ else _) = _ => destruct c; [|discriminate H] end.
  set (p1 := dict_set String.eqb (dict_set String.eqb props "weight_low" (t_weight t mod 256)) "weight_high" (t_weight t / 256)) in H.
  destruct (calc_articulation (t_length t) length (dict_get String.eqb p1 "shorten_by")) as [[mid art]|] eqn:CA; cbn [bind] in H; [|discriminate H].
  assert (art = None) as ->.
  { unfold calc_articulation in CA. destruct length as [n|]; [|apply some_inj in CA; now apply pair_inj in CA as [_ <-]].
    destruct (n <=? 24); [|discriminate CA]. destruct (Z.leb_spec n 8); [apply some_inj in CA; now apply pair_inj in CA as [_ <-]|lia]. }
  cbn [bind] in H. apply some_inj in H. subst t'. eexists. split; [reflexivity|]. cbn [p_props]. unfold with_shorten, p1.
  destruct mid; rewrite !(gset String.eqb string_eqb_ok); split; reflexivity.
Qed.

(** A fast road vehicle never asks the program's own change_properties. *)
Theorem C64_change_properties_refuted : forall text evs p v recs u purchase sc info, apply_events 1 start evs = Some (v_manager v) ->
  rv_sprites text p v = Some recs -> 1024 <= p -> 0 <= v_id u -> asks 54 info sc -> ~ reaches 1 recs (v_vid v) purchase sc u.
Proof.
  intros text evs p v recs u purchase sc info U H P UI AS (pre & m' & o' & post & e' & E' & En' & Ru').
  assert (B : built 1 text evs v recs) by (split; [exact U|]; left; eauto). pose proof (built_one _ _ _ _ _ B) as ONE. clear B.
  rewrite <- (rev_involutive evs) in U. unfold rv_sprites in H.
  destruct (vehicle_inv 1 text (set_speed p) _ v recs (rev evs) "change_properties" O_SPEED eq_refl (speed_step p)
      ltac:(cbn [In]; intuition discriminate) ltac:(cbn [In]; intuition discriminate) U H)
    as (st & st1 & st2 & h1 & h & m & props & A & M & F & E & S & L & _ & _ & X1 & X2 & X3 & X4 & X5 & _).
  unfold set_speed in X2. destruct (Z.leb_spec 1024 p); [|lia]. destruct (graphics_obj st1) as [d|]; [|discriminate X2]. cbn [bind] in X2.
  destruct (assign_put _ _ _ _ _ _ _ X1 X2) as (h2 & H2 & W2 & _). destruct (X5 h2 H2) as (h3 & H3 & W3).
  assert (C : callback_of 1 "change_properties" 54 CDual) by (exists 0; cbn; tauto).
  assert (exists e, entry purchase m = Some e /\ run 1 (sc_own sc) e = Some (TUser (vobj_of O_SPEED))) as (e & En & Ru).
  { destruct purchase.
    - apply (purchase_callback 1 st h3 m _ 54 CDual _ info sc eq_refl H3 M C); [|exact AS]. rewrite W3, W2. reflexivity.
    - apply (normal_callback 1 st h3 m _ 54 CDual _ info sc eq_refl H3 M C); [|exact AS]. rewrite W3, W2. reflexivity. }
  rewrite !app_assoc in E. destruct (map_split_unique recs (v_vid v) _ _ _ _ _ _ _ _ ONE E E') as (_ & <- & _).
  rewrite En in En'. apply some_inj in En'. subst e'. rewrite Ru in Ru'. apply some_inj in Ru'. injection Ru' as <-. cbn in UI. unfold O_SPEED in UI. lia.
Qed.

(** The speed of 1023 becomes 1020 although 1024 can be written. *)
Theorem C64_road_speed_1023_refuted : Z.abs (road_speed (Z.min 1023 255) (Z.min (speed_value 1023) 255) None - 1023) = 3 /\
  Z.abs (road_speed 255 255 (Some 256) - 1023) = 1.
Proof. split; reflexivity. Qed.

(** Ships: speeds up to 127 km/h fit the property and are twice the number;
    faster ones are accepted and do not fit; kmhish goes the other way. *)
Theorem C64_ship_kmh_partial : forall s, 0 <= s <= 127 -> ship_kmh s = Some (2 * s) /\ 0 <= 2 * s < 256.
Proof.
  intros s S. unfold ship_kmh, check_speed, ship_kmh_table.
  destruct (Z.leb_spec 0 s), (Z.leb_spec s 256), (Z.ltb_spec s 256), (Z.leb_spec s 171); try lia. split; [reflexivity|lia].
Qed.
Theorem C64_ship_kmh_refuted : (forall s, 128 <= s < 256 -> exists x, ship_kmh s = Some x /\ 255 < x) /\ ship_kmh 256 = None /\
  (forall s, ship_kmh s <> None <-> 0 <= s < 256) /\ ship_kmhish 100 = 50 /\ ship_kmh 100 = Some 200.
Proof.
  split; [|split; [reflexivity|split; [|split; reflexivity]]].
  - intros s S. unfold ship_kmh, check_speed, ship_kmh_table.
    destruct (Z.leb_spec 0 s), (Z.leb_spec s 256), (Z.ltb_spec s 256); try lia. destruct (Z.leb_spec s 171); eexists; (split; [reflexivity|lia]).
  - intros s. unfold ship_kmh, check_speed. destruct (Z.leb_spec 0 s), (Z.leb_spec s 256), (Z.ltb_spec s 256); split; intros Q; try discriminate; try lia; contradiction Q; reflexivity.
Qed.

(** Objects: sizes of 1..15 can be read back; others are not refused and
    mix. *)
Theorem C64_object_size : forall x y, 0 <= x < 16 -> 0 <= y < 16 -> object_size x y mod 16 = x /\ object_size x y / 16 = y /\ 0 <= object_size x y < 256.
Proof.
  intros x y X Y. unfold object_size.
  assert (E : Z.lor (Z.shiftl y 4) x = x + y * 2 ^ 4) by (rewrite Z.lor_comm, lor_shift by (try apply Z.ltb_lt; lia); reflexivity).
  rewrite E. change (2 ^ 4) with 16. Z.to_euclidean_division_equations; lia.
Qed.
Theorem C64_object_size_refuted : object_size 17 1 = object_size 1 1.
Proof. reflexivity. Qed.

(** ---- a concrete case ---- *)

Definition eight (k : Z) : list Z := map (fun i => k + Z.of_nat i) (seq 0 8).
Definition two : list livery := [mk_livery "Red" (eight 100); mk_livery "Blue" (eight 200)].
Definition ex_text (s : string) : Z := 0xD000 + Z.of_nat (String.length s).
Definition ex_rid (p : pid) : Z := match p with PInt n => n | PStr _ => 1 | PMid _ => 2 | PTail _ => 3 end.
Definition ex_scene (cb info sub : Z) : scene :=
  mk_scene (fun v => if v =? 12 then cb else if v =? 16 then info else if v =? 242 then sub else 0) (fun v => if v =? 242 then sub else 0)
           (fun off v => if (off =? -1) && (v =? 242) then sub else 0).
Lemma ex_asks : forall cb info sub, 0 <= cb < 65536 -> 0 <= info < 2 ^ 32 -> asks cb info (ex_scene cb info sub).
Proof. intros. split; [assumption|]. split; [reflexivity|]. split; [assumption|reflexivity]. Qed.

(** A road vehicle of 150 km/h-ish with two liveries and a purchase sprite. *)
Definition ex_rv : vehicle := mk_vehicle 7 two (Some 999) (Some "fast") [("power", 5)] start.
Definition rv_recs : list vrec := match rv_sprites ex_text (rv_kmhish 600) ex_rv with Some l => l | None => [] end.
Example C64_case_built : built 1 ex_text [] ex_rv rv_recs.
Proof. split; [reflexivity|]. left. split; [reflexivity|]. exists 1200. reflexivity. Qed.
Example C64_case_shows : shows 1 rv_recs 7 false (ex_scene 0 0 1) 3 203 /\ shows 1 rv_recs 7 false (ex_scene 0 0 9) 3 103 /\
  shows 1 rv_recs 7 true (ex_scene 0 0 1) 6 999 /\ says 1 rv_recs 7 false (ex_scene 25 0 1) 0xD004 /\ says 1 rv_recs 7 false (ex_scene 54 21 0) 300.
Proof.
  pose proof C64_case_built as B. split; [|split; [|split; [|split]]].
  - destruct (C64_livery _ _ _ _ _ (ex_scene 0 0 1) 0 3 B ltac:(discriminate) (ex_asks 0 0 1 ltac:(lia) ltac:(lia)) ltac:(lia)) as (l & s & L & S & R & _).
    apply some_inj in L. subst l. apply some_inj in S. subst s. exact R.
  - destruct (C64_livery _ _ _ _ _ (ex_scene 0 0 9) 0 3 B ltac:(discriminate) (ex_asks 0 0 9 ltac:(lia) ltac:(lia)) ltac:(lia)) as (l & s & L & S & R & _).
    apply some_inj in L. subst l. apply some_inj in S. subst s. exact R.
  - exact (proj1 (C64_purchase _ _ _ _ _ 999 (ex_scene 0 0 1) 0 6 B eq_refl (ex_asks 0 0 1 ltac:(lia) ltac:(lia)))).
  - exact (proj1 (C64_names _ _ _ _ _ (ex_scene 25 0 1) 0 B eq_refl (ex_asks 25 0 1 ltac:(lia) ltac:(lia)))).
  - destruct (C64_road_speed ex_text [] 1200 ex_rv rv_recs eq_refl eq_refl ltac:(lia) eq_refl eq_refl) as (p08 & p15 & cb & _ & _ & D1 & D2 & C & _ & N & D3).
    destruct cb as [x|]; [|specialize (N eq_refl); lia]. destruct (C x eq_refl) as (_ & S). destruct (S false (ex_scene 54 21 0) 21 (ex_asks 54 21 0 ltac:(lia) ltac:(lia)) eq_refl) as (SX & _).
    destruct D3 as (_ & EX). specialize (EX eq_refl). unfold road_speed in EX.
    assert (x = 300) as -> by (destruct (Z.eqb_spec x 0); destruct (Z.eqb_spec p15 0); lia). exact SX.
Qed.

(** A train of length 20: head, middle, tail. *)
Definition ex_train : train_v :=
  match train_new (PInt 10) 120 300 (Some 20) [(1, 77)] two start None None [("engine_class", 8); ("power", 900)] with Some t => t | None => mk_train (PInt 0) 0 0 None [] [] [] None None [] start [] end.
Definition train_recs : list vrec := match train_sprites ex_rid ex_text ex_train with Some l => l | None => [] end.
Example C64_case_train : train_built ex_rid ex_text [] ex_train train_recs /\ distinct ex_rid ex_train /\
  shows 0 train_recs 2 false (ex_scene 0 0 1) 5 205 /\ shows 0 train_recs 10 false (ex_scene 0 0 1) 5 EMPTY /\ shows 0 train_recs 3 false (ex_scene 0 0 1) 5 EMPTY /\
  shows 0 train_recs 10 true (ex_scene 0 0 1) 5 106 /\ says 0 train_recs 10 false (ex_scene 22 2 0) 3 /\ says 0 train_recs 10 false (ex_scene 51 1 0) 77.
Proof.
  assert (B : train_built ex_rid ex_text [] ex_train train_recs) by (split; reflexivity).
  assert (D : distinct ex_rid ex_train) by (unfold distinct; cbn; repeat constructor; cbn; intuition discriminate).
  assert (T : train_new (PInt 10) 120 300 (Some 20) [(1, 77)] two start None None [("engine_class", 8); ("power", 900)] = Some ex_train) by reflexivity.
  destruct (C64_long _ _ _ _ _ _ _ _ _ _ _ _ _ _ _ T ltac:(lia) ltac:(discriminate) B D) as (mid & tail & E & P & Q).
  injection E as <- <-. destruct (P (ex_scene 0 0 1) 0 5 (ex_asks 0 0 1 ltac:(lia) ltac:(lia)) ltac:(lia)) as ((l & s & S1 & S2 & S3 & _) & (S4 & _) & (S5 & _) & S6).
  apply some_inj in S1. subst l. apply some_inj in S2. subst s. destruct (S6 eq_refl) as (l & s & S7 & S8 & S9 & _). apply some_inj in S7. subst l. apply some_inj in S8. subst s.
  split; [exact B|]. split; [exact D|]. split; [exact S3|]. split; [exact S4|]. split; [exact S5|]. split; [exact S9|]. split.
  - exact (proj1 (Q false (ex_scene 22 2 0) 2 (ex_asks 22 2 0 ltac:(lia) ltac:(lia)) ltac:(cbn; lia))).
  - exact (proj1 (C64_train_sounds ex_rid ex_text [] ex_train train_recs (ex_scene 51 1 0) 1 B D ltac:(discriminate) (ex_asks 51 1 0 ltac:(lia) ltac:(lia)))).
Qed.

(** Liveries of parts are not checked: with seven sprites the part shows
    nothing at all. *)
Definition ex_part_train : train_v :=
  match train_new (PInt 10) 120 300 None [] two start None None [("engine_class", 8)] with
  | Some t => match add_articulated_part false (PInt 11) [mk_livery "Short" [1; 2; 3; 4; 5; 6; 7]] start None None [] t with Some t => t | None => t end
  | None => mk_train (PInt 0) 0 0 None [] [] [] None None [] start [] end.
Theorem C64_part_liveries_refuted : exists recs, train_built ex_rid ex_text [] ex_part_train recs /\
  List.length (t_parts ex_part_train) = 1%nat /\ forall sc info dir s, asks 0 info sc -> ~ shows 0 recs 11 false sc dir s.
Proof.
  destruct (train_sprites ex_rid ex_text ex_part_train) as [recs|] eqn:E; [|vm_compute in E; discriminate E].
  exists recs. split; [split; [reflexivity|exact E]|]. split; [reflexivity|]. intros sc info dir s A (pre & h & R & P).
  assert (B : train_built ex_rid ex_text [] ex_part_train recs) by (split; [reflexivity|exact E]).
  assert (D : distinct ex_rid ex_part_train) by (unfold distinct; cbn; repeat constructor; cbn; intuition discriminate).
  pose proof (train_one _ _ _ _ _ 11 B D) as ONE. clear D.
  destruct B as (U & _). rewrite <- (rev_involutive []) in U.
  destruct (train_inv _ _ _ _ _ U E) as (pu & st0 & h0 & m0 & props0 & ec & r & _ & _ & _ & _ & _ & PR & Er & _).
  assert (NP : nth_error (t_parts ex_part_train) 0 = Some (mk_part (PInt 11) [mk_livery "Short" [1; 2; 3; 4; 5; 6; 7]] start [])) by reflexivity.
  destruct (parts_nth _ _ _ _ _ _ _ PR NP) as (a & pl & b & Eb & PP).
  assert (U2 : apply_events 0 start (rev []) = Some (p_manager (mk_part (PInt 11) [mk_livery "Short" [1; 2; 3; 4; 5; 6; 7]] start []))) by reflexivity.
  destruct (part_inv _ _ _ _ _ [] U2 PP) as (st & h1 & m & props & H & M & _ & El & G). destruct (G ltac:(discriminate)) as [W O]. clear G.
  destruct (normal_graphics 0 st h1 m _ info sc eq_refl H M W A) as (e & En & Ru).
  assert (HR : hrun 0 sc (livery_graphics false (code_at (1 + Z.of_nat 0)) [mk_livery "Short" [1; 2; 3; 4; 5; 6; 7]]) = Some (HLayout 0)) by reflexivity.
  set (pre0 := (purchase_recs pu ++ ls_recs (t_head ex_part_train) ++ [RName (ex_rid (t_id ex_part_train)); RDefine (ex_rid (t_id ex_part_train)) (merge (train_own ex_part_train) props0)])
          ++ RMap (ex_rid (t_id ex_part_train)) m0 (s_objs st0) :: a) in *.
  assert (EQ : recs = (pre0 ++ livery_records [mk_livery "Short" [1; 2; 3; 4; 5; 6; 7]] ++ [RDefine 11 (merge (("sprite_id", 253) :: [("engine_class", ec)]) props)]) ++ RMap 11 m (s_objs st) :: b).
  { rewrite Er, Eb, El. unfold pre0. cbn [p_liveries p_id ex_rid]. change (ls_recs [mk_livery "Short" [1; 2; 3; 4; 5; 6; 7]]) with (livery_records [mk_livery "Short" [1; 2; 3; 4; 5; 6; 7]]).
    generalize (livery_records [mk_livery "Short" [1; 2; 3; 4; 5; 6; 7]]) (purchase_recs pu) (ls_recs (t_head ex_part_train)). intros. repeat (rewrite <- !app_assoc; cbn [app]). reflexivity. }
  pose proof (reply_obj 0 (pre0 ++ livery_records [mk_livery "Short" [1; 2; 3; 4; 5; 6; 7]] ++ [RDefine 11 (merge (("sprite_id", 253) :: [("engine_class", ec)]) props)]) 11 m (s_objs st) b e _ _ _ false sc En Ru O HR) as RR. rewrite <- EQ in RR.
  destruct (reply_unique _ _ _ _ _ _ _ _ _ ONE R RR) as (-> & ->). cbn [picture] in P. destruct P as (n & k & sp & FO & _).
  pose proof (force_exec _ _ _ _ FO) as FE. unfold force_of in FE. rewrite fold_left_app in FE. cbn in FE. injection FE as <- <- <-.
  destruct FO as (_ & _ & _ & L & _). discriminate L.
Qed.

Print Assumptions C64_livery.
Print Assumptions C64_purchase.
Print Assumptions C64_no_purchase.
Print Assumptions C64_names.
Print Assumptions C64_text.
Print Assumptions C64_keeps.
Print Assumptions C64_road_speed.
Print Assumptions C64_props.
Print Assumptions C64_road_length.
Print Assumptions C64_ship_speed.
Print Assumptions C64_train_part.
Print Assumptions C64_train_names.
Print Assumptions C64_train_text.
Print Assumptions C64_train_sounds.
Print Assumptions C64_train_weight.
Print Assumptions C64_short.
Print Assumptions C64_long.
Print Assumptions C64_shape.
Print Assumptions C64_add_part.
Print Assumptions C64_train_props.
Print Assumptions C64_builds.
(** A dual-headed train has no articulated parts: it cannot be given one, and
    with one it cannot be built. *)
Theorem C64_dual_headed : forall rid text t v, dict_get String.eqb (t_props t) "is_dual_headed" = Some v -> v <> 0 ->
  (t_parts t <> [] -> train_sprites rid text t = None)
  /\ forall id liveries m length weight props, add_articulated_part false id liveries m length weight props t = None.
Proof.
  intros rid text t v D N. assert (T : truthy (t_props t) "is_dual_headed" = true).
  { unfold truthy. rewrite D. apply negb_true_iff, Z.eqb_neq, N. }
  split.
  - intro P. unfold train_sprites. rewrite T. destruct (t_parts t) as [|p ps]; [congruence|]. reflexivity.
  - intros. unfold add_articulated_part. rewrite T. cbn [negb orb]. rewrite andb_false_r. cbn [andb]. now rewrite ?andb_false_l.
Qed.
Print Assumptions C64_dual_headed.
Print Assumptions C64_train_builds.
Print Assumptions C64_part_liveries_refuted.
Print Assumptions C64_change_properties_refuted.
(** What add_articulated_part checks: a part made is one that may exist, and
    the checks stand in the way of no other. *)
Lemma part_property_allowed : forall n, part_property n <-> existsb (String.eqb n) allowed_props = true.
Proof.
  intros n. set (nums := [7; 11; 20; 21; 28; 29; 33; 34; 37; 39; 40; 41; 43; 44; 45; 46]).
  set (names := map (fun e => fst (snd e)) (filter (fun e => existsb (Z.eqb (fst e)) nums) Action0Model.ACTION0_TRAIN_PROPS)).
  assert (P : part_property n <-> In n names).
  { unfold names. rewrite in_map_iff. split.
    - intros (k & f & K & I). exists (k, (n, f)). split; [reflexivity|]. apply filter_In. split; [exact I|]. cbn [fst]. apply existsb_exists. exists k. split; [exact K|apply Z.eqb_refl].
    - intros ((k & (n' & f)) & <- & I). apply filter_In in I as [I K]. cbn [fst snd] in *. apply existsb_exists in K as (k' & K & E). apply Z.eqb_eq in E. subst k'. exists k, f. auto. }
  assert (E1 : forallb (fun a => existsb (String.eqb a) allowed_props) names = true) by reflexivity.
  assert (E2 : forallb (fun a => existsb (String.eqb a) names) allowed_props = true) by reflexivity.
  rewrite P. clearbody names. rewrite forallb_forall in E1, E2. split; intros H.
  - exact (E1 n H).
  - apply existsb_exists in H as (m & M & E). apply String.eqb_eq in E. subst m. specialize (E2 n M). apply existsb_exists in E2 as (m & M' & E). apply String.eqb_eq in E. now subst m.
Qed.
Theorem C64_part_checks : forall id ls m length weight props t,
  let ok := (forall n, id = PInt n -> n < 16384) /\ (forall v, dict_get String.eqb (t_props t) "is_dual_headed" = Some v -> v = 0)
    /\ (length = None \/ dict_get String.eqb props "shorten_by" = None) /\ (forall n x, In (n, x) props -> part_property n) in
  (add_articulated_part false id ls m length weight props t <> None -> ok) /\
  (ok -> add_articulated_part false id ls m length weight props t = add_articulated_part true id ls m length weight props t).
Proof.
  intros id ls m length weight props t ok.
  assert (B : (match id with PInt n => n <? 16384 | _ => true end && negb (truthy (t_props t) "is_dual_headed")
        && negb (is_some length && is_some (dict_get String.eqb props "shorten_by"))
        && forallb (fun kv => existsb (String.eqb (fst kv)) allowed_props) props)%bool = true <-> ok).
  { rewrite !andb_true_iff, !negb_true_iff. unfold ok. rewrite forallb_forall. split.
    - intros (((A & D) & S) & F). split; [|split; [|split]].
      + intros n ->. lia.
      + intros v V. unfold truthy in D. rewrite V in D. apply negb_false_iff in D. lia.
      + destruct length; [|auto]. destruct (dict_get String.eqb props "shorten_by"); [discriminate S|auto].
      + intros n x I. apply part_property_allowed. exact (F (n, x) I).
    - intros (A & D & S & F). split; [split; [split|]|].
      + destruct id; auto. specialize (A _ eq_refl). lia.
      + unfold truthy. destruct (dict_get String.eqb (t_props t) "is_dual_headed") as [v|]; [|reflexivity]. rewrite (D v eq_refl). reflexivity.
      + destruct S as [-> | ->]; [reflexivity|]. apply andb_false_r.
      + intros [n x] I. apply part_property_allowed. exact (F n x I). }
  unfold add_articulated_part. cbn [orb]. split.
  - intros H. apply B. match type of H with (if ?c then _ else _) <> _ => destruct c; [reflexivity|congruence] end.
  - intros H. apply B in H. rewrite H. reflexivity.
Qed.
Print Assumptions C64_part_checks.
