(** C47: callback managers.  The statements use SpecCallback: [wanted] is the
    last thing the program said about a callback, [answers] what the game
    ends up with when it asks. *)
From Coq Require Import ZArith List Bool String Lia.
From Verif Require Import Base BaseFacts RecordsModel ContainerProofs VA2Model VA2Vars PropModel Action0Model
  CallbackModel SpecCallback CallbackProofs CallbackProofs2.
Import ListNotations.
Open Scope string_scope.
Open Scope list_scope.
Open Scope Z_scope.

(** Trains, road vehicles, ships, aircraft, stations, houses, industry tiles,
    objects, road stops; those with a purchase list. *)
Definition graphics_features : list Z := [0; 1; 2; 3; 4; 7; 9; 15; 20].
Definition purchase_features : list Z := [0; 1; 2; 3; 4; 15; 20].
Definition start : manager := mk_manager [] [].

Lemma graphics_feature_facts : forall f, In f graphics_features ->
  has_graphics f = true /\ In f variable_features /\ ~ In f [16; 18; 19].
Proof.
  intros f I. unfold graphics_features in I. cbn [In] in I.
  repeat (destruct I as [<-|I]; [split; [reflexivity|]; split; [cbn; tauto|]; cbn; lia|]). destruct I.
Qed.
Lemma purchase_feature_facts : forall f, In f purchase_features -> In f graphics_features /\ has_purchase f = true.
Proof.
  intros f I. unfold purchase_features in I. cbn [In] in I.
  repeat (destruct I as [<-|I]; [split; [cbn; tauto|reflexivity]|]). destruct I.
Qed.
Lemma tracks_start : forall f evs m, apply_events f start evs = Some m -> tracks f m (rev evs).
Proof. intros f evs m H. rewrite <- (app_nil_r (rev evs)). exact (tracks_events f evs start [] m (tracks_empty f) H). Qed.
Lemma callback_range : forall f n cb c, callback_of f n cb c -> 0 <= cb < 65536.
Proof. intros f n cb c (fl & I). destruct (table_facts f) as (_ & _ & _ & _ & K). exact (proj1 (K _ _ I)). Qed.
Lemma callback_nonzero : forall f n cb c, ~ In f [16; 18; 19] -> callback_of f n cb c -> cb <> 0.
Proof.
  intros f n cb c Hf (fl & I). destruct (table_facts f) as (_ & _ & _ & [K|K] & _); [contradiction|]. exact (K _ _ I).
Qed.
Lemma property_vehicle : forall f n p c, property_of f n p c -> is_vehicle_feature f = true.
Proof.
  intros f n p c I. unfold property_of, table in I. destruct (dict_get Z.eqb PROPERTIES f) as [l|] eqn:E; [|destruct I].
  apply dget_In in E. apply (in_map fst) in E. cbn [fst PROPERTIES map] in E.
  destruct E as [<-|[<-|[<-|[<-|[]]]]]; reflexivity.
Qed.

(** The property switches exist whenever a property is set. *)
Lemma property_active : forall f m hist n p c w, tracks f m hist -> property_of f n p c ->
  pval w (dict_get Z.eqb (m_props m) p) <> None ->
  is_vehicle_feature f && existsb (fun kc => is_set (snd kc)) (m_props m) = true.
Proof.
  intros f m hist n p c w T H V. rewrite (property_vehicle _ _ _ _ H). cbn [andb]. apply existsb_exists.
  destruct (dict_get Z.eqb (m_props m) p) as [o|] eqn:E; [|contradiction V; reflexivity].
  exists (p, o). split; [exact (dget_In _ _ _ E)|]. cbn [snd]. unfold pval in V. unfold is_set.
  destruct (c_class o), w; try (contradiction V; reflexivity);
    destruct (c_default o), (c_purchase o); try reflexivity; contradiction V; reflexivity.
Qed.

(** Normal context: a callback with a user callback leads to it; every other
    number (0, the drawing of graphics, included) leads to the graphics. *)
Theorem C47_normal : forall f evs m res,
  In f graphics_features -> apply_events f start evs = Some m -> make_switch f m = Some res ->
  (forall n cb c v info, callback_of f n cb c -> fst (wanted c n (rev evs)) = Some v -> 0 <= info < 2 ^ 32 ->
     answers f false res cb info (TUser v))
  /\ exists g, fst (wanted CGraphics "graphics" (rev evs)) = Some g
  /\ forall cb info, 0 <= cb < 65536 -> 0 <= info < 2 ^ 32 ->
     (forall n c, callback_of f n cb c -> fst (wanted c n (rev evs)) = None) ->
     (cb = 54 -> forall n c, property_of f n (info mod 256) c -> fst (wanted_prop c n (rev evs)) = None) ->
     answers f false res cb info (TUser g).
Proof.
  intros f evs m res Hf He Hm. pose proof (tracks_start _ _ _ He) as T.
  destruct (graphics_feature_facts f Hf) as (Hg & Hv & Hn).
  destruct (make_switch_spec f m _ res T Hm) as (dc & pc & G1 & P1 & R1 & R2 & D1 & D2). cbn zeta in *.
  rewrite (graphics_value f m _ T Hn) in *. specialize (G1 Hg).
  destruct (fst (wanted CGraphics "graphics" (rev evs))) as [g|] eqn:Eg; [|contradiction G1; reflexivity].
  rewrite Hg in R1. cbn [option_map or_zero] in *.
  assert (Rn : exists e, entry false res = Some e /\ forall var cb info, request cb info var ->
    run f var e = match dict_get Z.eqb dc cb with Some t => run f var t | None => Some (TUser g) end).
  { unfold entry. rewrite R1. destruct dc as [|x dc].
    - eexists. split; [reflexivity|]. intros var cb info R. reflexivity.
    - eexists. split; [reflexivity|]. intros var cb info R. rewrite run_switch.
      destruct (code_request f var cb info Hv R) as [-> _]. reflexivity. }
  destruct Rn as (e & Ee & Re). split.
  - intros n cb c v info Hc W Hi. exists e. split; [exact Ee|]. intros var R. rewrite (Re var cb info R), D1.
    pose proof (callback_nonzero _ _ _ _ Hn Hc) as Hz. destruct (Z.eqb_spec cb 0); [contradiction|].
    rewrite (cb_value f m _ n cb c T Hc (or_introl Hn)), W. reflexivity.
  - exists g. split; [reflexivity|]. intros cb info Hcb Hi Nc Np. exists e. split; [exact Ee|].
    intros var R. rewrite (Re var cb info R), D1. destruct (Z.eqb_spec cb 0) as [->|Hz]; [reflexivity|].
    rewrite (cb_none f m _ cb fst eq_refl T Hz Nc). cbn [user].
    destruct (Z.eqb_spec cb 54) as [->|]; [|reflexivity].
    unfold prop_switches in *. destruct (is_vehicle_feature f && existsb (fun kc => is_set (snd kc)) (m_props m)) eqn:Ha; [|reflexivity].
    destruct (make_switches_spec (m_props m) (TUser g) (t_pnodup _ _ _ T) (props_classes _ _ _ T)) as (ds & ps & E & A & _).
    cbn [or_zero]. rewrite E. cbn [fst]. destruct ds as [d|]; [|reflexivity].
    rewrite (A f var d Hv 54 info R eq_refl). rewrite (prop_none f m _ _ T (Np eq_refl)). reflexivity.
Qed.

(** Property callbacks in the normal context, when no property was given two
    different callbacks that bear the same number (or both no number yet). *)
Definition numbers_differ (f : Z) (hist : list event) : Prop := forall n p c d q,
  property_of f n p c -> wanted_prop c n hist = (Some d, Some q) -> v_ref d = v_ref q -> d = q.
Theorem C47_property_partial : forall f evs m res,
  is_vehicle_feature f = true -> apply_events f start evs = Some m -> make_switch f m = Some res ->
  numbers_differ f (rev evs) ->
  forall n p c v info, property_of f n p c -> fst (wanted_prop c n (rev evs)) = Some v ->
  0 <= info < 2 ^ 32 -> info mod 256 = p -> answers f false res 54 info (TUser v).
Proof.
  intros f evs m res Hveh He Hm Df n p c v info Hp W Hi Ei. pose proof (tracks_start _ _ _ He) as T.
  assert (Hf : In f graphics_features).
  { unfold is_vehicle_feature in Hveh. apply andb_true_iff in Hveh as [A B]. unfold graphics_features. cbn. lia. }
  destruct (graphics_feature_facts f Hf) as (Hg & Hv & Hn).
  destruct (make_switch_spec f m _ res T Hm) as (dc & pc & G1 & P1 & R1 & R2 & D1 & D2). cbn zeta in *.
  destruct (prop_value f m _ n p c T Hp) as [V1 V2].
  assert (Ha : is_vehicle_feature f && existsb (fun kc => is_set (snd kc)) (m_props m) = true).
  { apply (property_active f m _ n p c false T Hp). rewrite V1, W. discriminate. }
  destruct (P1 Ha) as [Q1 Q2].
  destruct (make_switches_spec (m_props m) (or_zero (fst (values (dict_get Z.eqb (m_callbacks m) 0)))) (t_pnodup _ _ _ T) (props_classes _ _ _ T)) as (ds & ps & E & A & A' & _).
  rewrite E in Q2. apply some_inj in Q2.
  pose proof (D1 54) as D54. rewrite Q1 in D54. cbn [Z.eqb Pos.eqb fst user] in D54. rewrite <- Q2 in D54. cbn [fst] in D54.
  destruct ds as [d|].
  2:{ exfalso. specialize (A' eq_refl p). rewrite V1, W in A'. discriminate. }
  assert (exists e, entry false res = Some e /\ forall var, request 54 info var -> run f var e = run f var d) as (e & Ee & Re).
  { unfold entry. rewrite R1. destruct dc as [|x dc]; [discriminate|]. eexists. split; [reflexivity|].
    intros var R. rewrite run_switch. destruct (code_request f var 54 info Hv R) as [-> _].
    rewrite D54. reflexivity. }
  exists e. split; [exact Ee|]. intros var R. rewrite (Re var R), (A f var d Hv 54 info R eq_refl), Ei, V1, W, V2.
  destruct (forallb (fun kc => agree (snd kc)) (m_props m)) eqn:Eag; [|reflexivity].
  destruct c; try reflexivity. destruct (snd (wanted_prop CDual n (rev evs))) as [q|] eqn:Wq; [|reflexivity].
  do 3 f_equal. symmetry. apply (Df n p CDual v q Hp).
  - rewrite (surjective_pairing (wanted_prop CDual n (rev evs))), W, Wq. reflexivity.
  - destruct (dict_get Z.eqb (m_props m) p) as [o|] eqn:Eo; [|cbn in V1; congruence].
    rewrite forallb_forall in Eag. specialize (Eag _ (dget_In _ _ _ Eo)). cbn [snd] in Eag.
    unfold pval in V1, V2. unfold agree in Eag. destruct (c_class o); try congruence.
    rewrite V1, W, V2 in Eag. unfold is_set in Eag.
    rewrite V1, W in Eag. destruct (c_class o) eqn:Co.
    + cbn in Eag. destruct (v_ref v), (v_ref q); cbn in Eag; try discriminate; [apply Z.eqb_eq in Eag; congruence|reflexivity].
    + cbn in Eag. rewrite V2 in Eag. cbn in Eag. destruct (v_ref v), (v_ref q); cbn in Eag; try discriminate; [apply Z.eqb_eq in Eag; congruence|reflexivity].
    + cbn in Eag. destruct (v_ref v), (v_ref q); cbn in Eag; try discriminate; [apply Z.eqb_eq in Eag; congruence|reflexivity].
    + cbn in Eag. destruct (v_ref v), (v_ref q); cbn in Eag; try discriminate; [apply Z.eqb_eq in Eag; congruence|reflexivity].
Qed.

(** Purchase list: a callback set for it leads there; numbers without any
    user callback lead to the purchase graphics, or the normal ones if there
    are none; a callback set for the normal context only leads there or to
    the graphics. *)
Theorem C47_purchase : forall f evs m res,
  In f purchase_features -> apply_events f start evs = Some m -> make_switch f m = Some res ->
  (forall n cb c v info, callback_of f n cb c -> snd (wanted c n (rev evs)) = Some v -> 0 <= info < 2 ^ 32 ->
     answers f true res cb info (TUser v))
  /\ (forall n p v info, property_of f n p CDual -> snd (wanted_prop CDual n (rev evs)) = Some v ->
      0 <= info < 2 ^ 32 -> info mod 256 = p -> answers f true res 54 info (TUser v))
  /\ exists g, (match snd (wanted CGraphics "graphics" (rev evs)) with
                | Some v => Some v | None => fst (wanted CGraphics "graphics" (rev evs)) end) = Some g
  /\ (forall cb info, 0 <= cb < 65536 -> cb <> 54 -> 0 <= info < 2 ^ 32 ->
     (forall n c, callback_of f n cb c -> wanted c n (rev evs) = (None, None)) ->
     answers f true res cb info (TUser g))
  /\ (forall info, 0 <= info < 2 ^ 32 ->
     wanted CDual "change_properties" (rev evs) = (None, None) ->
     (forall n c, property_of f n (info mod 256) c -> wanted_prop c n (rev evs) = (None, None)) ->
     exists g', (g' = g \/ Some g' = fst (wanted CGraphics "graphics" (rev evs)))
        /\ answers f true res 54 info (TUser g'))
  /\ (forall n cb c v info, callback_of f n cb c -> wanted c n (rev evs) = (Some v, None) -> 0 <= info < 2 ^ 32 ->
     cb <> 54 -> answers f true res cb info (TUser v) \/ answers f true res cb info (TUser g)).
Proof.
  intros f evs m res Hf He Hm. pose proof (tracks_start _ _ _ He) as T.
  destruct (purchase_feature_facts f Hf) as (Hf' & Hpu). destruct (graphics_feature_facts f Hf') as (Hg & Hv & Hn).
  destruct (make_switch_spec f m _ res T Hm) as (dc & pc & G1 & P1 & R1 & R2 & D1 & D2). cbn zeta in *.
  rewrite (graphics_value f m _ T Hn) in *. specialize (G1 Hg).
  destruct (fst (wanted CGraphics "graphics" (rev evs))) as [gd|] eqn:Eg; [|contradiction G1; reflexivity].
  rewrite Hg in R1, R2. rewrite Hpu in R2. cbn [option_map or_zero] in *.
  set (go := snd (wanted CGraphics "graphics" (rev evs))) in *.
  set (g := match go with Some v => v | None => gd end).
  assert (Eg' : match go with Some v => Some v | None => Some gd end = Some g) by (unfold g; destruct go; reflexivity).
  (* the answer is in the purchase map, or both it and the graphics are absent *)
  assert (Rp : exists e, entry true res = Some e /\
    ((pc <> [] \/ go <> None) /\ (forall var cb info, request cb info var ->
        run f var e = match dict_get Z.eqb pc cb with Some t => run f var t | None => Some (TUser g) end)
     \/ pc = [] /\ g = gd /\ (forall var cb info, request cb info var ->
        run f var e = match dict_get Z.eqb dc cb with Some t => run f var t | None => Some (TUser g) end))).
  { unfold entry. rewrite R2. destruct pc as [|x pc].
    - unfold g. destruct go as [gp|].
      + cbn [dict_get Z.eqb Pos.eqb]. eexists. split; [reflexivity|]. left. split; [right; discriminate|]. intros; reflexivity.
      + cbn [dict_get]. rewrite R1. destruct dc as [|y dc].
        * eexists. split; [reflexivity|]. right. split; [reflexivity|]. split; [reflexivity|]. intros; reflexivity.
        * eexists. split; [reflexivity|]. right. split; [reflexivity|]. split; [reflexivity|].
          intros var cb info R. rewrite run_switch. destruct (code_request f var cb info Hv R) as [-> _]. reflexivity.
    - match goal with |- context [dict_get Z.eqb [(255, ?t)] 255] => change (dict_get Z.eqb [(255, t)] 255) with (Some t) end.
      eexists. split; [reflexivity|]. left. split; [left; discriminate|].
      intros var cb info R. rewrite run_switch. destruct (code_request f var cb info Hv R) as [-> _].
      destruct (dict_get Z.eqb (x :: pc) cb); [reflexivity|]. unfold g. clearbody go. destruct go; reflexivity. }
  destruct Rp as (e & Ee & Re).
  split; [|split; [|exists g; split; [exact Eg'|split; [|split]]]].
  - intros n cb c v info Hc W Hi. pose proof (callback_nonzero _ _ _ _ Hn Hc) as Hz.
    assert (Dp : dict_get Z.eqb pc cb = Some (TUser v)).
    { rewrite D2. destruct (Z.eqb_spec cb 0); [contradiction|].
      rewrite (cb_value f m _ n cb c T Hc (or_introl Hn)), W. reflexivity. }
    exists e. split; [exact Ee|]. intros var R. destruct Re as [[_ Re]|(Q & _)].
    + rewrite (Re var cb info R), Dp. reflexivity.
    + rewrite Q in Dp. discriminate.
  - intros n p v info Hp W Hi Ei. destruct (prop_value f m _ n p CDual T Hp) as [V1 V2].
    assert (Ha : is_vehicle_feature f && existsb (fun kc => is_set (snd kc)) (m_props m) = true).
    { apply (property_active f m _ n p CDual true T Hp). rewrite V2, W. discriminate. }
    destruct (P1 Ha) as [Q1 Q2].
    destruct (make_switches_spec (m_props m) (TUser gd) (t_pnodup _ _ _ T) (props_classes _ _ _ T)) as (ds & ps & E & _ & _ & A & A').
    rewrite E in Q2. apply some_inj in Q2.
    pose proof (D2 54) as D54. rewrite Q1 in D54. cbn [Z.eqb Pos.eqb snd user] in D54. rewrite <- Q2 in D54. cbn [snd] in D54.
    destruct ps as [d|].
    2:{ exfalso. destruct (A' eq_refl) as [A1 _]. specialize (A1 p). rewrite V2, W in A1. discriminate. }
    exists e. split; [exact Ee|]. intros var R. destruct Re as [[_ Re]|(Q & _)].
    + rewrite (Re var 54 info R), D54, (A f var d Hv 54 info R eq_refl), Ei, V2, W. reflexivity.
    + rewrite Q in D54. discriminate.
  - intros cb info Hcb H54 Hi Nc. exists e. split; [exact Ee|]. intros var R.
    assert (L : forall (sel : setting -> option vobj), sel (None, None) = None -> cb <> 0 ->
       sel (values (dict_get Z.eqb (m_callbacks m) cb)) = None).
    { intros sel S0 Hz. apply (cb_none f m _ cb sel S0 T Hz). intros n c Hc. rewrite (Nc n c Hc). exact S0. }
    destruct Re as [[Hne Re]|(Hpc & Hgd & Re)]; rewrite (Re var cb info R).
    + rewrite D2. destruct (Z.eqb_spec cb 0); [reflexivity|]. rewrite (L snd eq_refl) by assumption. cbn [user].
      destruct (Z.eqb_spec cb 54); [contradiction|reflexivity].
    + rewrite D1. destruct (Z.eqb_spec cb 0); [reflexivity|]. rewrite (L fst eq_refl) by assumption. cbn [user].
      destruct (Z.eqb_spec cb 54); [contradiction|reflexivity].
  - intros info Hi Nch Np.
    assert (Nn : forall w, pval w (dict_get Z.eqb (m_props m) (info mod 256)) = None).
    { intros w. destruct w.
      - apply (prop_none_purchase f m _ _ T). intros n c Hc. rewrite (Np n c Hc). reflexivity.
      - apply (prop_none f m _ _ T). intros n c Hc. rewrite (Np n c Hc). reflexivity. }
    assert (L : values (dict_get Z.eqb (m_callbacks m) 54) = (None, None)).
    { destruct (is_vehicle_feature f) eqn:Hveh.
      - rewrite (t_value _ _ _ T "change_properties" 54 CDual); [exact Nch| |exact (vehicle_change f Hveh)].
        apply (own_nonzero f _ 54 CDual (vehicle_change f Hveh)). left. exact Hn.
      - destruct (dict_get Z.eqb (m_callbacks m) 54) as [o|] eqn:E; [|reflexivity].
        destruct (t_known _ _ _ T _ _ E) as (n & Hd). apply descriptor_spec in Hd as [(fl & Hd)|(_ & Q & _)]; [|discriminate].
        exfalso. revert Hd. unfold purchase_features in Hf. cbn [In] in Hf.
        destruct Hf as [<-|[<-|[<-|[<-|[<-|[<-|[<-|[]]]]]]]]; try discriminate Hveh;
          unfold table; cbn [dict_get CALLBACKS Z.eqb Pos.eqb]; intros Hd; cbn [In] in Hd;
          repeat (destruct Hd as [Hd|Hd]; [discriminate Hd|]); exact Hd. }
    pose proof (D1 54) as E1. pose proof (D2 54) as E2. rewrite L in E1, E2. cbn [Z.eqb Pos.eqb fst snd user] in E1, E2.
    unfold prop_switches in *.
    destruct (is_vehicle_feature f && existsb (fun kc => is_set (snd kc)) (m_props m)) eqn:Ha.
    2:{ exists g. split; [left; reflexivity|]. exists e. split; [exact Ee|]. intros var R.
        destruct Re as [[Hne Re]|(Hpc & Hgd & Re)]; rewrite (Re var 54 info R); [rewrite E2|rewrite E1]; reflexivity. }
    destruct (make_switches_spec (m_props m) (TUser gd) (t_pnodup _ _ _ T) (props_classes _ _ _ T))
      as (ds & ps & E & A & _ & B & _).
    cbn [or_zero] in E1, E2. rewrite E in E1, E2. cbn [fst snd] in E1, E2.
    destruct Re as [[Hne Re]|(Hpc & Hgd & Re)].
    + destruct ps as [d|].
      * exists gd. split; [right; reflexivity|]. exists e. split; [exact Ee|]. intros var R.
        rewrite (Re var 54 info R), E2, (B f var d Hv 54 info R eq_refl), !Nn.
        destruct (forallb _ _); reflexivity.
      * exists g. split; [left; reflexivity|]. exists e. split; [exact Ee|]. intros var R.
        rewrite (Re var 54 info R), E2. reflexivity.
    + exists g. split; [left; reflexivity|]. exists e. split; [exact Ee|]. intros var R.
      rewrite (Re var 54 info R), E1. destruct ds as [d|]; [|reflexivity].
      rewrite (A f var d Hv 54 info R eq_refl), !Nn. rewrite Hgd. reflexivity.
  - intros n cb c v info Hc W Hi H54. pose proof (callback_nonzero _ _ _ _ Hn Hc) as Hz.
    pose proof (cb_value f m _ n cb c T Hc (or_introl Hn)) as Vc. rewrite W in Vc.
    destruct Re as [[Hne Re]|(Hpc & Hgd & Re)].
    + right. exists e. split; [exact Ee|]. intros var R. rewrite (Re var cb info R), D2, Vc.
      destruct (Z.eqb_spec cb 0); [contradiction|]. cbn [snd user]. destruct (Z.eqb_spec cb 54); [contradiction|reflexivity].
    + left. exists e. split; [exact Ee|]. intros var R. rewrite (Re var cb info R), D1, Vc.
      destruct (Z.eqb_spec cb 0); [contradiction|]. reflexivity.
Qed.

(** make_switch refuses exactly: no graphics for a feature that draws, or a
    property together with change_properties. *)
Theorem C47_total : forall f evs m,
  ~ In f [16; 18; 19] -> apply_events f start evs = Some m ->
  (make_switch f m = None <->
   (has_graphics f = true /\ fst (wanted CGraphics "graphics" (rev evs)) = None)
   \/ (is_vehicle_feature f = true /\ set_for CDual (wanted CDual "change_properties" (rev evs))
       /\ exists n p c, property_of f n p c /\ set_for c (wanted_prop c n (rev evs)))).
Proof.
  intros f evs m Hn He. pose proof (tracks_start _ _ _ He) as T.
  pose proof (graphics_value f m _ T Hn) as G.
  assert (Hset : existsb (fun kc => is_set (snd kc)) (m_props m) = true <->
     exists n p c, property_of f n p c /\ set_for c (wanted_prop c n (rev evs))).
  { rewrite existsb_exists. split.
    - intros ([p o] & I & S1). cbn [snd] in S1.
      assert (E : dict_get Z.eqb (m_props m) p = Some o).
      { destruct (dict_get Z.eqb (m_props m) p) as [o'|] eqn:E.
        - apply dget_In in E. f_equal. exact (nodup_key _ _ _ _ _ (t_pnodup _ _ _ T) E I).
        - exfalso. assert (K : In p (map fst (m_props m))) by (apply (in_map fst _ _ I)).
          clear -E K. induction (m_props m) as [|[k a] l IH]; [destruct K|]. cbn in *.
          destruct (Z.eqb_spec p k); [discriminate|]. destruct K as [K|K]; [congruence|]. exact (IH E K). }
      destruct (t_pknown _ _ _ T _ _ E) as (n & Hd). pose proof (t_pvalue _ _ _ T _ _ _ Hd) as V.
      rewrite E in V. cbn [values] in V. apply prop_descriptor_spec in Hd. exists n, p, (c_class o). split; [exact Hd|].
      rewrite <- V. unfold set_for, is_set in *. cbn [fst snd].
      destruct (c_class o), (c_default o), (c_purchase o); cbn in S1; try discriminate S1;
        try discriminate; try (left; discriminate); right; discriminate.
    - intros (n & p & c & Hp & S1). pose proof (proj2 (prop_descriptor_spec _ _ _ _) Hp) as Hd.
      pose proof (t_pvalue _ _ _ T _ _ _ Hd) as V. rewrite <- V in S1.
      destruct (dict_get Z.eqb (m_props m) p) as [o|] eqn:E.
      + exists (p, o). split; [exact (dget_In _ _ _ E)|]. cbn [snd].
        destruct (t_pknown _ _ _ T _ _ E) as (n' & Hn'). destruct (prop_descriptor_uniq _ _ _ _ _ _ Hd Hn') as [_ Ec].
        subst c. cbn [values] in S1. unfold set_for in S1. unfold is_set. cbn [fst snd] in S1.
        destruct (c_class o), (c_default o), (c_purchase o); cbn in *; try reflexivity;
          try (contradiction S1; reflexivity); destruct S1 as [S1|S1]; contradiction S1; reflexivity.
      + exfalso. cbn [values] in S1. unfold set_for in S1. destruct c; cbn in S1; try (apply S1; reflexivity);
          destruct S1 as [S1|S1]; apply S1; reflexivity. }
  unfold make_switch. destruct (descr_get (0, CGraphics) (m_callbacks m)) as [g cbs] eqn:Eg.
  assert (Vg : (c_default g, c_purchase g) = wanted CGraphics "graphics" (rev evs)
     /\ forall k, k <> 0 -> dict_get Z.eqb cbs k = dict_get Z.eqb (m_callbacks m) k).
  { rewrite <- G. destruct (descr_get_spec _ _ _ _ Eg) as [[E1 ->]|(E1 & -> & ->)]; cbn [fst] in E1; rewrite E1.
    - split; [reflexivity|]. intros; reflexivity.
    - split; [reflexivity|]. intros k Hk. rewrite dset_get. cbn [fst]. destruct (Z.eqb_spec k 0); [contradiction|reflexivity]. }
  destruct Vg as [Vg Vk].
  assert (Vd : c_default g = fst (wanted CGraphics "graphics" (rev evs))) by (rewrite <- Vg; reflexivity).
  rewrite Vd. set (gd := fst (wanted CGraphics "graphics" (rev evs))) in *. clearbody gd.
  destruct (is_some gd || negb (has_graphics f)) eqn:Eh.
  2:{ apply orb_false_iff in Eh as [Eh1 Eh2]. split; [intros _|reflexivity]. left.
      apply negb_false_iff in Eh2. split; [exact Eh2|]. destruct gd; [discriminate|reflexivity]. }
  assert (NG : ~ (has_graphics f = true /\ gd = None)).
  { intros [A ->]. rewrite A in Eh. discriminate. }
  destruct (is_vehicle_feature f && existsb (fun kc => is_set (snd kc)) (m_props m)) eqn:Ea.
  2:{ cbv beta iota zeta delta [bind]. destruct (collect cbs [] []) as [dc pc]. split; [discriminate|].
      intros [K|(K1 & K2 & K3)]; [contradiction|]. apply Hset in K3. rewrite K1, K3 in Ea. discriminate. }
  apply andb_true_iff in Ea as [Ea1 Ea2]. rewrite (vehicle_change f Ea1). cbv beta iota zeta delta [bind].
  destruct (descr_get (54, CDual) cbs) as [ch cbs2] eqn:Ech.
  assert (Vch : is_set ch = true <-> set_for CDual (wanted CDual "change_properties" (rev evs))).
  { assert (V : values (dict_get Z.eqb (m_callbacks m) 54) = wanted CDual "change_properties" (rev evs)).
    { apply (t_value _ _ _ T "change_properties" 54 CDual); [|exact (vehicle_change f Ea1)].
      exact (own_nonzero f _ 54 CDual (vehicle_change f Ea1) (or_introl Hn)). }
    rewrite <- V, <- (Vk 54) by lia.
    destruct (descr_get_spec _ _ _ _ Ech) as [[E1 ->]|(E1 & -> & ->)]; cbn [fst snd] in E1; rewrite E1.
    - assert (C : c_class ch = CDual).
      { rewrite Vk in E1 by lia. destruct (t_known _ _ _ T _ _ E1) as (n & Hd).
        destruct (descriptor_uniq f n "change_properties" 54 (c_class ch) CDual (or_introl Hn) Hd (vehicle_change f Ea1)). assumption. }
      unfold is_set. rewrite C. cbn. destruct (c_default ch), (c_purchase ch); cbn; split; intros K; try reflexivity; try discriminate;
        try (left; discriminate); try (right; discriminate); destruct K as [K|K]; contradiction K; reflexivity.
    - cbn. split; [discriminate|]. intros [K|K]; contradiction K; reflexivity. }
  destruct (is_set ch) eqn:Es; cbn [negb].
  - split; [intros _|reflexivity]. right. split; [exact Ea1|]. split; [apply Vch; reflexivity|]. apply Hset. exact Ea2.
  - destruct (make_switches_spec (m_props m) (or_zero gd) (t_pnodup _ _ _ T) (props_classes _ _ _ T)) as (ds & ps & E & _).
    rewrite E. cbv beta iota zeta delta [bind]. destruct (collect cbs2 _ _) as [dc pc]. split; [discriminate|].
    intros [K|(K1 & K2 & K3)]; [contradiction|]. apply Vch in K2. discriminate.
Qed.

(** Industries and railtypes draw nothing by themselves: the switch is there
    exactly if some callback is set; set callbacks are answered and all
    others get the integer 0 or the graphics if some were given. *)
Theorem C47_no_graphics : forall f evs m res,
  f = 10 \/ f = 16 -> apply_events f start evs = Some m -> make_switch f m = Some res ->
  (forall n cb c v info, callback_of f n cb c -> cb <> 0 -> fst (wanted c n (rev evs)) = Some v -> 0 <= info < 2 ^ 32 ->
     answers f false res cb info (TUser v) /\ answers f true res cb info (TUser v))
  /\ (forall cb info, 0 <= cb < 65536 -> 0 <= info < 2 ^ 32 ->
     (forall n c, callback_of f n cb c -> cb <> 0 -> fst (wanted c n (rev evs)) = None) ->
     fst res = None
     \/ answers f false res cb info TZero /\ (f = 10 -> fst (wanted CGraphics "graphics" (rev evs)) = None)
     \/ exists g, answers f false res cb info (TUser g) /\ (f = 10 -> fst (wanted CGraphics "graphics" (rev evs)) = Some g))
  /\ ((forall n cb c, callback_of f n cb c -> cb <> 0 -> fst (wanted c n (rev evs)) = None) -> fst res = None /\ snd res = []).
Proof.
  intros f evs m res Hf He Hm. pose proof (tracks_start _ _ _ He) as T.
  assert (Hv : In f variable_features) by (destruct Hf; subst; cbn; tauto).
  assert (Hg : has_graphics f = false) by (destruct Hf; subst; reflexivity).
  assert (Hp : has_purchase f = false) by (destruct Hf; subst; reflexivity).
  assert (Hveh : is_vehicle_feature f = false) by (destruct Hf; subst; reflexivity).
  destruct (make_switch_spec f m _ res T Hm) as (dc & pc & _ & _ & R1 & R2 & D1 & _). cbn zeta in *.
  rewrite Hg in R1. rewrite Hp in R2. unfold prop_switches in D1. rewrite Hveh in D1. cbn [andb fst] in D1.
  assert (D1' : forall cb, dict_get Z.eqb dc cb = if cb =? 0 then None else user (fst (values (dict_get Z.eqb (m_callbacks m) cb))) None).
  { intros cb. rewrite D1. destruct (cb =? 0); [reflexivity|]. destruct (cb =? 54); reflexivity. }
  clear D1.
  assert (Rn : dc <> [] -> forall e var cb info, entry false res = Some e -> request cb info var ->
    run f var e = match dict_get Z.eqb dc cb with Some t => run f var t
                  | None => Some (or_zero (fst (values (dict_get Z.eqb (m_callbacks m) 0)))) end).
  { intros Hne e var cb info Ee R. unfold entry in Ee. rewrite R1 in Ee. destruct dc as [|x dc]; [contradiction Hne; reflexivity|].
    apply some_inj in Ee. subst e. rewrite run_switch.
    destruct (code_request f var cb info Hv R) as [-> _]. destruct (dict_get Z.eqb (x :: dc) cb); [reflexivity|].
    destruct (fst (values (dict_get Z.eqb (m_callbacks m) 0))); reflexivity. }
  split; [|split].
  - intros n cb c v info Hc Hz W Hi.
    assert (Dp : dict_get Z.eqb dc cb = Some (TUser v)).
    { rewrite D1'. destruct (Z.eqb_spec cb 0); [contradiction|].
      rewrite (cb_value f m _ n cb c T Hc (or_intror Hz)), W. reflexivity. }
    assert (Hne : dc <> []) by (intros Q; rewrite Q in Dp; discriminate).
    assert (A : answers f false res cb info (TUser v)).
    { destruct (entry false res) as [e|] eqn:Ee.
      - exists e. split; [exact Ee|]. intros var R. rewrite (Rn Hne e var cb info eq_refl R), Dp. reflexivity.
      - exfalso. unfold entry in Ee. rewrite R1 in Ee. destruct dc; [contradiction Hne; reflexivity|discriminate]. }
    split; [exact A|]. destruct A as (e & E1 & E2). exists e. split; [|exact E2]. unfold entry in *. rewrite R2. exact E1.
  - intros cb info Hcb Hi Nc. destruct dc as [|x dc]; [left; exact R1|]. right.
    assert (Hd : dict_get Z.eqb (x :: dc) cb = None).
    { rewrite D1'. destruct (Z.eqb_spec cb 0); [reflexivity|].
      rewrite (cb_none f m _ cb fst eq_refl T n); [reflexivity|]. intros nn c Hc. exact (Nc nn c Hc n). }
    specialize (Rn ltac:(discriminate)).
    assert (exists e, entry false res = Some e) as (e & Ee) by (unfold entry; rewrite R1; eexists; reflexivity).
    assert (Gv : f = 10 -> fst (values (dict_get Z.eqb (m_callbacks m) 0)) = fst (wanted CGraphics "graphics" (rev evs))).
    { intros ->. rewrite (graphics_value 10 m _ T); [reflexivity|]. cbn. lia. }
    destruct (fst (values (dict_get Z.eqb (m_callbacks m) 0))) as [g|] eqn:Eg.
    + right. exists g. split; [|intros Q; rewrite <- (Gv Q); reflexivity]. exists e. split; [exact Ee|].
      intros var R. rewrite (Rn e var cb info Ee R), Hd. reflexivity.
    + left. split; [|intros Q; rewrite <- (Gv Q); reflexivity]. exists e. split; [exact Ee|].
      intros var R. rewrite (Rn e var cb info Ee R), Hd. reflexivity.
  - intros Nc. split; [|exact R2]. rewrite R1. destruct dc as [|[k t] dc]; [reflexivity|]. exfalso.
    specialize (D1' k). cbn [dict_get] in D1'. rewrite Z.eqb_refl in D1'. destruct (Z.eqb_spec k 0); [discriminate|].
    rewrite (cb_none f m _ k fst eq_refl T n) in D1'; [discriminate|]. intros nn c Hc. exact (Nc nn k c Hc n).
Qed.

(** ---- callback flags ---- *)

(** Entries of the library's table that contradict the specification. *)
Definition misdocumented (f cb : Z) : bool :=
  existsb (fun p => (fst p =? f) && (snd p =? cb)) [(1, 16); (2, 16); (11, 325); (20, 322)].
Definition flag_ok (f : Z) (kd : Z * cbdata) : bool :=
  misdocumented f (fst kd) ||
  match documented_bit f (fst kd) with
  | Some b => (0 <=? b) && (b <? 16) && (cd_flag (snd kd) =? 2 ^ b)
  | None => cd_flag (snd kd) =? 0
  end.
Lemma flags_ok : forallb (fun fl => forallb (flag_ok (fst fl)) (snd fl)) CALLBACKS = true.
Proof. vm_compute. reflexivity. Qed.
Lemma flag_at : forall f k d, In (k, d) (table CALLBACKS f) -> flag_ok f (k, d) = true.
Proof.
  intros f k d I. unfold table in I. destruct (dict_get Z.eqb CALLBACKS f) as [l|] eqn:E; [|destruct I].
  apply dget_In in E. pose proof flags_ok as F. rewrite forallb_forall in F. specialize (F _ E). cbn [fst snd] in F.
  rewrite forallb_forall in F. exact (F _ I).
Qed.
Lemma flag_bit : forall f k d b, In (k, d) (table CALLBACKS f) -> misdocumented f k = false -> 0 <= b ->
  (Z.testbit (cd_flag d) b = true <-> documented_bit f k = Some b).
Proof.
  intros f k d b I M Hb. pose proof (flag_at f k d I) as F. unfold flag_ok in F. cbn [fst snd] in F. rewrite M in F. cbn [orb] in F.
  destruct (documented_bit f k) as [b'|].
  - apply andb_true_iff in F as [F1 F2]. apply Z.eqb_eq in F2. rewrite F2, Z.pow2_bits_eqb by lia. rewrite Z.eqb_eq.
    split; [intros ->; reflexivity|intros Q; congruence].
  - apply Z.eqb_eq in F. rewrite F, Z.bits_0. split; discriminate.
Qed.

Lemma dget_table : forall f n k c, callback_of f n k c -> exists d, dict_get Z.eqb (table CALLBACKS f) k = Some d /\ In (k, d) (table CALLBACKS f).
Proof.
  intros f n k c (fl & I). destruct (table_facts f) as (N & _). exists (mk_cbd n fl c). split; [|exact I].
  induction (table CALLBACKS f) as [|[k0 a] l IH]; [destruct I|]. cbn in N. apply NoDup_cons_iff in N as [N1 N2].
  cbn [dict_get]. destruct I as [I|I].
  - injection I as -> ->. rewrite Z.eqb_refl. reflexivity.
  - destruct (Z.eqb_spec k k0) as [->|]; [|exact (IH I N2)]. exfalso. apply N1. apply (in_map fst l _ I).
Qed.
Lemma flag_sum_spec : forall f l res, 0 <= res < 65536 ->
  (forall k o, In (k, o) l -> k <> 0 -> exists n, callback_of f n k (c_class o)) ->
  exists r, flag_sum f l res = Some r /\ 0 <= r < 65536 /\ forall b, 0 <= b ->
   (Z.testbit r b = true <-> Z.testbit res b = true
     \/ exists k o d, In (k, o) l /\ k <> 0 /\ is_set o = true /\ In (k, d) (table CALLBACKS f) /\ Z.testbit (cd_flag d) b = true).
Proof.
  induction l as [|[k o] l IH]; intros res Hr Hk.
  - exists res. split; [reflexivity|]. split; [exact Hr|]. intros b Hb. split; [auto|]. intros [A|(k & o & d & [] & _)]. exact A.
  - cbn [flag_sum]. destruct (Z.eqb_spec k 0) as [E|Nz]; cbn [negb andb].
    + destruct (IH res Hr ltac:(intros; eapply Hk; [right; eassumption|assumption])) as (r & E1 & B & K). exists r.
      split; [exact E1|]. split; [exact B|]. intros b Hb. rewrite (K b Hb). split; (intros [A|(k1 & o1 & d & I & A)]; [left; exact A|right]).
      * exists k1, o1, d. split; [right; exact I|exact A].
      * destruct I as [I|I]; [injection I as <- <-; destruct A; contradiction|]. exists k1, o1, d. auto.
    + destruct (is_set o) eqn:Es.
      * destruct (Hk k o (or_introl eq_refl) Nz) as (n & Hc). destruct (dget_table _ _ _ _ Hc) as (d & Ed & Id). rewrite Ed. cbn [bind].
        destruct (table_facts f) as (N & _ & _ & _ & K0). destruct (K0 _ _ Id) as (_ & Kf & _).
        assert (Hl : 0 <= Z.lor res (cd_flag d) < 65536).
        { split; [apply Z.lor_nonneg; lia|]. destruct (Z.eq_dec (Z.lor res (cd_flag d)) 0) as [->|Hz]; [lia|].
          assert (0 <= Z.lor res (cd_flag d)) by (apply Z.lor_nonneg; lia).
          change 65536 with (2 ^ 16). apply Z.log2_lt_pow2; [lia|]. rewrite Z.log2_lor by lia.
          apply Z.max_lub_lt.
          - destruct (Z.eq_dec res 0) as [->|]; [reflexivity|]. apply Z.log2_lt_pow2; [lia|]. change (2 ^ 16) with 65536. lia.
          - destruct (Z.eq_dec (cd_flag d) 0) as [->|]; [reflexivity|]. apply Z.log2_lt_pow2; [lia|]. change (2 ^ 16) with 65536. lia. }
        destruct (IH _ Hl ltac:(intros; eapply Hk; [right; eassumption|assumption])) as (r & E1 & B & K). exists r.
        split; [exact E1|]. split; [exact B|]. intros b Hb. rewrite (K b Hb), Z.lor_spec, orb_true_iff. split.
        -- intros [[A|A]|(k1 & o1 & d1 & I & A)]; [left; exact A| |].
           ++ right. exists k, o, d. split; [left; reflexivity|]. auto.
           ++ right. exists k1, o1, d1. split; [right; exact I|exact A].
        -- intros [A|(k1 & o1 & d1 & I & A)]; [left; left; exact A|]. destruct I as [I|I].
           ++ injection I as <- <-. left. right. destruct A as (_ & _ & A1 & A2).
              rewrite (nodup_key _ _ _ _ _ N Id A1). exact A2.
           ++ right. exists k1, o1, d1. auto.
      * destruct (IH res Hr ltac:(intros; eapply Hk; [right; eassumption|assumption])) as (r & E1 & B & K). exists r.
        split; [exact E1|]. split; [exact B|]. intros b Hb. rewrite (K b Hb). split; (intros [A|(k1 & o1 & d & I & A)]; [left; exact A|right]).
        -- exists k1, o1, d. split; [right; exact I|exact A].
        -- destruct I as [I|I]; [injection I as <- <-; destruct A as (_ & A & _); congruence|]. exists k1, o1, d. auto.
Qed.

(** Setting a callback sets its flag bit: after set_flag_props the two flag
    properties have the bits they had plus the bits the specification
    demands for the set callbacks, and nothing else; other properties are
    untouched.  For the four callbacks named in [misdocumented] the code
    sets other bits. *)
Definition needs_bit (f : Z) (hist : list event) (b : Z) : Prop :=
  exists n cb c, callback_of f n cb c /\ cb <> 0 /\ set_for c (wanted c n hist) /\ documented_bit f cb = Some b.
Lemma sget_set : forall (l : list (string * Z)) k v x,
  dict_get String.eqb (dict_set String.eqb l k v) x = if String.eqb x k then Some v else dict_get String.eqb l x.
Proof.
  induction l as [|[k0 a] l IH]; intros k v x; cbn.
  - destruct (String.eqb x k); reflexivity.
  - destruct (String.eqb_spec k k0) as [->|N]; cbn.
    + destruct (String.eqb_spec x k0); reflexivity.
    + rewrite IH. destruct (String.eqb_spec x k0) as [->|]; [|reflexivity].
      destruct (String.eqb_spec k0 k); [congruence|reflexivity].
Qed.
Theorem C47_flags_partial : forall f evs m props,
  apply_events f start evs = Some m ->
  (forall n cb c, callback_of f n cb c -> set_for c (wanted c n (rev evs)) -> misdocumented f cb = false) ->
  exists props', set_flag_props f m props = Some props'
  /\ (forall b, 0 <= b < 8 ->
      (Z.testbit (get_or_0 props' "cb_flags") b = true <->
       Z.testbit (get_or_0 props "cb_flags") b = true \/ needs_bit f (rev evs) b))
  /\ (forall b, 8 <= b -> Z.testbit (get_or_0 props' "cb_flags") b = Z.testbit (get_or_0 props "cb_flags") b)
  /\ (forall b, 0 <= b ->
      (Z.testbit (get_or_0 props' "extra_cb_flags") b = true <->
       Z.testbit (get_or_0 props "extra_cb_flags") b = true \/ needs_bit f (rev evs) (b + 8)))
  /\ forall n, n <> "cb_flags" -> n <> "extra_cb_flags" -> dict_get String.eqb props' n = dict_get String.eqb props n.
Proof.
  intros f evs m props He Hok. pose proof (tracks_start _ _ _ He) as T.
  assert (Hin : forall k o, In (k, o) (m_callbacks m) -> dict_get Z.eqb (m_callbacks m) k = Some o).
  { intros k o I. pose proof (t_nodup _ _ _ T) as N. clear -I N. induction (m_callbacks m) as [|[k0 a] l IH]; [destruct I|].
    cbn in N. apply NoDup_cons_iff in N as [N1 N2]. cbn [dict_get]. destruct I as [I|I].
    - injection I as -> ->. rewrite Z.eqb_refl. reflexivity.
    - destruct (Z.eqb_spec k k0) as [->|]; [|exact (IH I N2)]. exfalso. apply N1. apply (in_map fst l _ I). }
  assert (Hk : forall k o, In (k, o) (m_callbacks m) -> k <> 0 -> exists n, callback_of f n k (c_class o)).
  { intros k o I Hz. destruct (t_known _ _ _ T _ _ (Hin _ _ I)) as (n & Hd). exists n.
    apply descriptor_spec in Hd as [Hd|(_ & Q & _)]; [exact Hd|contradiction]. }
  assert (Hs : forall o n (k : Z) c, c_class o = c -> values (Some o) = wanted c n (rev evs) -> (is_set o = true <-> set_for c (wanted c n (rev evs)))).
  { intros o n k c <- V. rewrite <- V. cbn [values]. unfold is_set, set_for. cbn [fst snd].
    destruct (c_class o), (c_default o), (c_purchase o); cbn; split; intros K; try reflexivity; try discriminate;
      try (contradiction K; reflexivity); try (left; discriminate); try (right; discriminate);
      destruct K as [K|K]; contradiction K; reflexivity. }
  destruct (flag_sum_spec f (m_callbacks m) 0 ltac:(lia) Hk) as (r & Er & Br & Kr).
  assert (Nb : forall b, 0 <= b -> (Z.testbit r b = true <-> needs_bit f (rev evs) b)).
  { intros b Hb. rewrite (Kr b Hb), Z.bits_0. split.
    - intros [Q|(k & o & d & I & Hz & Ho & Id & Hbit)]; [discriminate|].
      destruct (Hk k o I Hz) as (n & Hc). exists n, k, (c_class o). split; [exact Hc|]. split; [exact Hz|].
      pose proof (cb_value f m _ n k _ T Hc (or_intror Hz)) as V. rewrite (Hin _ _ I) in V.
      assert (Sf : set_for (c_class o) (wanted (c_class o) n (rev evs))) by (apply (Hs o n k _ eq_refl V); exact Ho).
      split; [exact Sf|]. apply (flag_bit f k d b Id); auto. exact (Hok _ _ _ Hc Sf).
    - intros (n & k & c & Hc & Hz & Sf & Hbit). right.
      pose proof (cb_value f m _ n k _ T Hc (or_intror Hz)) as V.
      destruct (dict_get Z.eqb (m_callbacks m) k) as [o|] eqn:Eo.
      2:{ exfalso. rewrite <- V in Sf. unfold set_for in Sf. destruct c; cbn in Sf; try (apply Sf; reflexivity); destruct Sf as [Sf|Sf]; apply Sf; reflexivity. }
      destruct (dget_table _ _ _ _ Hc) as (d & Ed & Id). exists k, o, d. split; [exact (dget_In _ _ _ Eo)|]. split; [exact Hz|].
      assert (c_class o = c) as Ec.
      { destruct (t_known _ _ _ T _ _ Eo) as (n' & Hd').
        destruct (descriptor_uniq f n' n k _ _ (or_intror Hz) Hd' (callback_descriptor _ _ _ _ Hc)). assumption. }
      split; [apply (Hs o n k c Ec V); exact Sf|]. split; [exact Id|]. apply (flag_bit f k d b Id); auto. exact (Hok _ _ _ Hc Sf). }
  unfold set_flag_props. rewrite Er. cbv beta iota zeta delta [bind].
  set (p1 := if 0 <? Z.land r 255 then _ else props).
  set (p2 := if 0 <? Z.land r 65280 then _ else p1).
  exists p2. split; [reflexivity|].
  assert (L1 : forall b, 0 <= b -> Z.testbit (Z.land r 255) b = (b <? 8) && Z.testbit r b).
  { intros b Hb. rewrite Z.land_spec. change 255 with (Z.ones 8). rewrite Z.testbit_ones_nonneg by lia. apply andb_comm. }
  assert (L2 : 0 <? Z.land r 65280 = false -> forall b, 8 <= b -> Z.testbit r b = false).
  { intros Q b Hb. destruct (Z.testbit r b) eqn:Eb; [|reflexivity]. exfalso.
    assert (b < 16). { destruct (Z.lt_ge_cases b 16); [assumption|]. rewrite Z.testbit_false in Eb || idtac.
      assert (Z.testbit r b = false); [|congruence]. apply Z.bits_above_log2; [lia|].
      destruct (Z.eq_dec r 0) as [->|]; [cbn; lia|]. assert (Z.log2 r < 16) by (apply Z.log2_lt_pow2; [lia|change (2^16) with 65536; lia]). lia. }
    assert (Z.testbit (Z.land r 65280) b = true).
    { rewrite Z.land_spec, Eb. change 65280 with (Z.shiftl (Z.ones 8) 8). rewrite Z.shiftl_spec, Z.testbit_ones_nonneg by lia.
      cbn [andb]. apply Z.ltb_lt. lia. }
    assert (Z.land r 65280 = 0) as Q0. { apply Z.ltb_ge in Q. assert (0 <= Z.land r 65280) by (apply Z.land_nonneg; lia). lia. }
    rewrite Q0, Z.bits_0 in H0. discriminate. }
  assert (L3 : 0 <? Z.land r 255 = false -> forall b, 0 <= b < 8 -> Z.testbit r b = false).
  { intros Q b Hb. assert (Z.land r 255 = 0) as Q0. { apply Z.ltb_ge in Q. assert (0 <= Z.land r 255) by (apply Z.land_nonneg; lia). lia. }
    specialize (L1 b ltac:(lia)). rewrite Q0, Z.bits_0 in L1. destruct (Z.ltb_spec b 8); [|lia]. cbn [andb] in L1. congruence. }
  assert (G1 : get_or_0 p2 "cb_flags" = if 0 <? Z.land r 255 then Z.lor (get_or_0 props "cb_flags") (Z.land r 255) else get_or_0 props "cb_flags").
  { unfold p2, get_or_0. destruct (0 <? Z.land r 65280); [rewrite sget_set; cbn [String.eqb Ascii.eqb Bool.eqb]|];
      unfold p1; (destruct (0 <? Z.land r 255); [rewrite sget_set; cbn [String.eqb Ascii.eqb Bool.eqb]|]; reflexivity). }
  assert (G2 : get_or_0 p2 "extra_cb_flags" = if 0 <? Z.land r 65280 then Z.lor (get_or_0 props "extra_cb_flags") (Z.shiftr r 8) else get_or_0 props "extra_cb_flags").
  { assert (P : get_or_0 p1 "extra_cb_flags" = get_or_0 props "extra_cb_flags").
    { unfold p1, get_or_0. destruct (0 <? Z.land r 255); [rewrite sget_set; cbn [String.eqb Ascii.eqb Bool.eqb]|]; reflexivity. }
    unfold p2. destruct (0 <? Z.land r 65280); [|exact P]. rewrite <- P. unfold get_or_0 at 1. rewrite sget_set.
    cbn [String.eqb Ascii.eqb Bool.eqb]. reflexivity. }
  rewrite G1, G2. split; [|split; [|split]].
  - intros b Hb. destruct (0 <? Z.land r 255) eqn:E1.
    + rewrite Z.lor_spec, L1 by lia. destruct (Z.ltb_spec b 8); [|lia]. cbn [andb]. rewrite orb_true_iff, Nb by lia. reflexivity.
    + rewrite <- Nb by lia. rewrite (L3 eq_refl b Hb). split; [auto|]. intros [A|A]; [exact A|discriminate].
  - intros b Hb. destruct (0 <? Z.land r 255); [|reflexivity]. rewrite Z.lor_spec, L1 by lia.
    destruct (Z.ltb_spec b 8); [lia|]. cbn [andb]. apply orb_false_r.
  - intros b Hb. destruct (0 <? Z.land r 65280) eqn:E1.
    + rewrite Z.lor_spec, Z.shiftr_spec by lia. rewrite orb_true_iff, Nb by lia. reflexivity.
    + rewrite <- Nb by lia. rewrite (L2 eq_refl (b + 8)) by lia. split; [auto|]. intros [A|A]; [exact A|discriminate].
  - intros n H1 H2. unfold p2, p1. destruct (0 <? Z.land r 65280), (0 <? Z.land r 255); rewrite ?sget_set;
      destruct (String.eqb_spec n "cb_flags"), (String.eqb_spec n "extra_cb_flags"); try contradiction; reflexivity.
Qed.

(** The property numbers of trains, road vehicles and ships are the documented
    ones. *)
Theorem C47_property_ids_partial : forall f, In f [0; 1; 2] -> forall n p,
  (exists c, property_of f n p c) <-> In (n, p) (documented_props f).
Proof.
  intros f Hf n p. unfold property_of.
  assert (M : map (fun e => (fst (snd e), fst e)) (table PROPERTIES f) = documented_props f).
  { destruct Hf as [<-|[<-|[<-|[]]]]; reflexivity. }
  rewrite <- M, in_map_iff. split.
  - intros (c & I). exists (p, (n, c)). split; [reflexivity|exact I].
  - intros ([p' [n' c]] & E & I). cbn in E. injection E as -> ->. exists c. exact I.
Qed.

(** The callback numbers are the documented ones. *)
Theorem C47_callback_ids : forall f n cb, (exists c, callback_of f n cb c) <-> In (n, cb) (documented_callbacks f).
Proof.
  intros f n cb.
  assert (M : map (fun e => (cd_name (snd e), fst e)) (table CALLBACKS f) = documented_callbacks f).
  { destruct (Z.lt_ge_cases f 0) as [Hn|Hn]; [destruct f; try lia; reflexivity|].
    destruct (Z.lt_ge_cases 20 f) as [Hb|Hb].
    - unfold table. rewrite dget_notin.
      + destruct f as [|p|p]; try lia. do 5 (destruct p as [p|p|]; try reflexivity; try lia).
      + cbn [map fst CALLBACKS In]. lia.
    - assert (f = 0 \/ f = 1 \/ f = 2 \/ f = 3 \/ f = 4 \/ f = 5 \/ f = 6 \/ f = 7 \/ f = 8 \/ f = 9 \/ f = 10 \/ f = 11
        \/ f = 12 \/ f = 13 \/ f = 14 \/ f = 15 \/ f = 16 \/ f = 17 \/ f = 18 \/ f = 19 \/ f = 20) as K by lia.
      repeat (destruct K as [-> |K]; [reflexivity|]). subst f. reflexivity. }
  unfold callback_of. rewrite <- M, in_map_iff. split.
  - intros (c & fl & I). exists (cb, mk_cbd n fl c). split; [reflexivity|exact I].
  - intros ([k d] & E & I). cbn in E. injection E as <- <-. destruct d as [nn fl c]. exists c, fl. exact I.
Qed.

(** Callbacks given to the constructor are callbacks set afterwards. *)
Theorem C47_constructor : forall f g props cbs, make_manager f g props cbs =
  apply_events f start (EAssign "graphics" g :: map (fun na => EPropAssign (fst na) (snd na)) props
                        ++ map (fun na => EAssign (fst na) (snd na)) cbs).
Proof.
  intros f g props cbs. unfold make_manager, start. cbn [apply_events].
  destruct (apply_event f (mk_manager [] []) (EAssign "graphics" g)) as [m|]; [|reflexivity]. cbn [bind].
  set (l2 := map (fun na => EAssign (fst na) (snd na)) cbs). clearbody l2. revert m.
  induction (map (fun na => EPropAssign (fst na) (snd na)) props) as [|e l IH]; intros m; [reflexivity|].
  cbn [apply_events app]. destruct (apply_event f m e) as [m'|]; [|reflexivity]. cbn [bind]. apply IH.
Qed.

(** ---- where the code differs ---- *)

(** Flags of ship visual effects, cargo station ratings and road stop
    animation speed. *)
Definition u (i : Z) : vobj := mk_vobj i (Some i).
Theorem C47_flags_refuted :
  (exists m, apply_events 2 start [EAssign "visual_effect" (ARaw (Some (u 1)))] = Some m
     /\ documented_bit 2 16 = Some 0 /\ set_flag_props 2 m [] = Some [])
  /\ (exists m, apply_events 11 start [EAssign "station_rating" (ARaw (Some (u 1)))] = Some m
     /\ documented_bit 11 325 = Some 1
     /\ set_flag_props 11 m [] = Some [("cb_flags", 69); ("extra_cb_flags", 1)])
  /\ (exists m, apply_events 20 start [EAssign "anim_speed" (ARaw (Some (u 1)))] = Some m
     /\ documented_bit 20 322 = Some 2 /\ set_flag_props 20 m [] = Some [("cb_flags", 3)]).
Proof.
  split; [|split]; (eexists; split; [reflexivity|]; split; reflexivity).
Qed.

(** The two flag properties do not exist under these names for houses: the
    Action 0 that set_flag_props fills in cannot be written. *)
Theorem C47_house_flags_refuted :
  (exists m, apply_events 7 start [EAssign "colour" (ARaw (Some (u 1)))] = Some m
     /\ set_flag_props 7 m [] = Some [("cb_flags", 16)])
  /\ by_name 7 "cb_flags" = None /\ by_name 7 "extra_cb_flags" = None.
Proof. split; [eexists; split; reflexivity|split; reflexivity]. Qed.

(** Aircraft: cost factor, speed, running cost and range go to other
    properties, and two names are ignored without an error. *)
Theorem C47_property_ids_refuted :
  (property_of 3 "cost_factor" 10 CDual /\ In ("cost_factor", 11) (documented_props 3))
  /\ (property_of 3 "max_speed" 11 CDual /\ In ("max_speed", 12) (documented_props 3))
  /\ (property_of 3 "range" 29 CDual /\ In ("range", 31) (documented_props 3))
  /\ (exists m, apply_events 3 start [EAssign "graphics" (ARaw (Some (u 1)));
        EPropAssign "primary_cargo_capacity" (ARaw (Some (u 2)))] = Some m
      /\ make_switch 3 m = Some (Some (TUser (u 1)), [])).
Proof.
  repeat split; try (cbn; tauto). eexists. split; reflexivity.
Qed.

(** Two switches that were not numbered yet are taken for one: the normal
    context gets the purchase list's. *)
Theorem C47_property_refuted : exists d p m res,
  d <> p /\ apply_events 0 start [EAssign "graphics" (ARaw (Some (u 1)));
     EPropAssign "max_speed" (AObj (new_dual (Some d) (Some p)))] = Some m
  /\ make_switch 0 m = Some res /\ answers 0 false res 54 9 (TUser p).
Proof.
  exists (mk_vobj 2 None), (mk_vobj 3 None). eexists. eexists. split; [discriminate|]. split; [vm_compute; reflexivity|].
  split; [vm_compute; reflexivity|]. unfold answers, entry. cbn [fst]. eexists. split; [vm_compute; reflexivity|].
  intros var R. assert (Hv : In 0 variable_features) by (cbn; tauto).
  destruct (code_request 0 var 54 9 Hv R) as [E1 E2].
  rewrite run_switch, E1. cbn [dict_get Z.eqb Pos.eqb]. rewrite run_switch, E2. reflexivity.
Qed.

(** Railtypes, roadtypes and tramtypes: 'gui' has number 0 and replaces the
    graphics; it is then nobody's callback. *)
Theorem C47_gui_refuted : forall f, In f [16; 18; 19] -> exists m,
  apply_events f start [EAssign "graphics" (ARaw (Some (u 1))); EAssign "gui" (ARaw (Some (u 2)))] = Some m
  /\ dict_get Z.eqb (m_callbacks m) 0 = Some (new_default (Some (u 2)))
  /\ make_switch f m = Some (None, []).
Proof. intros f [<-|[<-|[<-|[]]]]; eexists; (split; [reflexivity|split; reflexivity]). Qed.

(** The switches of these features name a variable the compiler does not
    know: canals, cargos, airports, airport tiles, roadtypes, tramtypes. *)
Theorem C47_no_variables_refuted : forall f, In f [5; 11; 13; 17; 18; 19] -> va2_vars f = None.
Proof. intros f H. cbn [In] in H. destruct H as [<-|[<-|[<-|[<-|[<-|[<-|[]]]]]]]; reflexivity. Qed.

(** ---- examples ---- *)
Definition train_prog : list event := [
  EAssign "graphics" (ARaw (Some (u 1)));
  EField "graphics" true (Some (u 2));
  EAssign "cargo_capacity" (ARaw (Some (u 3)));
  EField "cargo_capacity" true None;
  EAssign "name" (ARaw (Some (u 4)));
  EPropAssign "max_speed" (AObj (new_dual (Some (u 5)) (Some (u 6))));
  EPropField "loading_speed" false (Some (u 7));
  EAssign "colour_mapping" (ARaw (Some (u 8)))].
Example C47_example : exists m res, apply_events 0 start train_prog = Some m /\ make_switch 0 m = Some res
  /\ numbers_differ 0 (rev train_prog)
  /\ (forall n cb c, callback_of 0 n cb c -> set_for c (wanted c n (rev train_prog)) -> misdocumented 0 cb = false)
  /\ fst res = Some (TSwitch "current_callback"
       [(54, TSwitch "extra_callback_info1_byte" [(9, TUser (u 5)); (7, TUser (u 7))] (TUser (u 1)));
        (21, TUser (u 3)); (45, TUser (u 8))] (TUser (u 1)))
  /\ set_flag_props 0 m [("cb_flags", 2); ("weight", 5)] = Some [("cb_flags", 74); ("weight", 5); ("extra_cb_flags", 1)].
Proof.
  eexists. eexists. split; [reflexivity|]. split; [reflexivity|]. split; [|split; [|split; reflexivity]].
  - intros n p c d q Hp W R. unfold property_of, table in Hp. cbn [dict_get PROPERTIES Z.eqb In] in Hp.
    repeat (destruct Hp as [Hp|Hp]; [injection Hp as <- <- <-; cbn in W; try discriminate W; injection W as <- <-; cbn in R; try discriminate R; reflexivity|]).
    destruct Hp.
  - intros n cb c _ _. unfold misdocumented. cbn. destruct cb; reflexivity.
Qed.

Print Assumptions C47_normal.
Print Assumptions C47_property_partial.
Print Assumptions C47_purchase.
Print Assumptions C47_total.
Print Assumptions C47_no_graphics.
Print Assumptions C47_flags_partial.
Print Assumptions C47_property_ids_partial.
Print Assumptions C47_constructor.
Print Assumptions C47_callback_ids.
