From Coq Require Import ZArith List Bool String Lia.
From Verif Require Import Base BaseFacts RecordsModel ContainerProofs IdMapProofs DecodeModel VA2Model VA2Vars ParserModel
  CallbackModel SpecCallback CallbackProofs CallbackProofs2 PropsCallback LibModel VehicleModel SpecVehicle VehicleProofs VehicleProofs2 VehicleProofs3.
Import ListNotations.
Open Scope string_scope.
Open Scope list_scope.
Open Scope Z_scope.

Definition gr_of (code : bytes) (ls : list livery) : option hobj :=
  match ls with [] => None | _ => Some (livery_graphics false code ls) end.
Definition ls_recs (ls : list livery) : list vrec := match ls with [] => [] | _ => livery_records ls end.
Definition code_at (position : Z) : bytes := if 0 <? position then part_code position else nm "cargo_subtype".

Lemma make_graphics_put : forall f ls pos st st' h, hist f st h -> make_graphics f ls pos st = Some st' ->
  exists h', hist f st' h'
    /\ fst (wanted CGraphics "graphics" h') = match gr_of (code_at pos) ls with Some _ => Some (vobj_of O_GRAPHICS) | None => fst (wanted CGraphics "graphics" h) end
    /\ snd (wanted CGraphics "graphics" h') = snd (wanted CGraphics "graphics" h)
    /\ (forall c m, m <> "graphics" -> wanted c m h' = wanted c m h) /\ (forall c m, wanted_prop c m h' = wanted_prop c m h)
    /\ (forall g, gr_of (code_at pos) ls = Some g -> dict_get Z.eqb (s_objs st') O_GRAPHICS = Some g)
    /\ (forall k, k <> O_GRAPHICS -> dict_get Z.eqb (s_objs st') k = dict_get Z.eqb (s_objs st) k) /\ s_recs st' = s_recs st ++ ls_recs ls.
Proof.
  intros f ls pos st st' h H P. destruct ls as [|l ls]; cbn [make_graphics gr_of ls_recs] in *.
  - apply some_inj in P. subst st'. exists h. repeat split; try reflexivity; try assumption; [intros g; discriminate|now rewrite app_nil_r].
  - destruct (graphics_put _ _ _ _ _ (hist_emit _ (livery_records (l :: ls)) _ _ H) P) as (h' & A & B & C & D & E & F). exists h'.
    split; [exact A|]. split; [now rewrite B|]. split; [now rewrite B|]. split; [exact C|]. split; [exact D|]. split.
    + intros g Eg. apply some_inj in Eg. now subst g.
    + split; [exact F|]. rewrite (put_recs _ _ _ _ _ _ P). reflexivity.
Qed.

Definition sounds_obj (d : hobj) (l : list (Z * Z)) : hobj :=
  HSwitch false (nm "extra_callback_info1_byte") (map (fun e => (fst e, HInt (snd e))) l) d.
Definition parts_obj (rid : pid -> Z) (ps : list part) : hobj :=
  HSwitch false (nm "extra_callback_info1_byte") (map (fun e => (fst e + 1, HInt (rid (p_id (snd e))))) (enum ps)) (HInt 32767).

Lemma sounds_put : forall l st st' h, hist 0 st h -> set_sounds l st = Some st' ->
  exists h', hist 0 st' h' /\ (forall c, wanted c "sound_effect" h' =
     match l with _ :: _ => meaning c (ARaw (Some (vobj_of O_SOUND))) | [] => wanted c "sound_effect" h end)
   /\ (forall c m, m <> "sound_effect" -> wanted c m h' = wanted c m h) /\ (forall c m, wanted_prop c m h' = wanted_prop c m h)
   /\ (l <> [] -> exists d, graphics_obj st = Some d /\ dict_get Z.eqb (s_objs st') O_SOUND = Some (sounds_obj d l))
   /\ (forall k, k <> O_SOUND -> dict_get Z.eqb (s_objs st') k = dict_get Z.eqb (s_objs st) k) /\ s_recs st' = s_recs st.
Proof.
  intros l st st' h H P. pose proof (sounds_step _ _ _ P) as (_ & K & R). rewrite app_nil_r in R.
  destruct l as [|e l]; unfold set_sounds in P.
  - apply some_inj in P. subst st'. exists h. repeat split; try reflexivity; try assumption. intros Q; contradiction.
  - destruct (graphics_obj st) as [d|] eqn:GO; [|discriminate P]. cbn [bind] in P.
    destruct (assign_put _ _ _ _ _ _ _ H P) as (h' & A & B & C & D & E). exists h'.
    split; [exact A|]. split; [exact B|]. split; [exact C|]. split; [exact D|]. split; [|split; [exact K|exact R]].
    intros _. exists d. split; [reflexivity|exact E].
Qed.
Lemma parts_put : forall rid l st st' h, hist 0 st h -> set_parts rid l st = Some st' ->
  exists h', hist 0 st' h' /\ (forall c, wanted c "articulated_part" h' =
     match l with _ :: _ => meaning c (ARaw (Some (vobj_of O_PARTS))) | [] => wanted c "articulated_part" h end)
   /\ (forall c m, m <> "articulated_part" -> wanted c m h' = wanted c m h) /\ (forall c m, wanted_prop c m h' = wanted_prop c m h)
   /\ (l <> [] -> dict_get Z.eqb (s_objs st') O_PARTS = Some (parts_obj rid l))
   /\ (forall k, k <> O_PARTS -> dict_get Z.eqb (s_objs st') k = dict_get Z.eqb (s_objs st) k) /\ s_recs st' = s_recs st.
Proof.
  intros rid l st st' h H P. pose proof (parts_step _ _ _ _ P) as (_ & K & R). rewrite app_nil_r in R.
  destruct l as [|e l]; unfold set_parts in P.
  - apply some_inj in P. subst st'. exists h. repeat split; try reflexivity; try assumption. intros Q; contradiction.
  - destruct (assign_put _ _ _ _ _ _ _ H P) as (h' & A & B & C & D & E). exists h'.
    split; [exact A|]. split; [exact B|]. split; [exact C|]. split; [exact D|]. split; [|split; [exact K|exact R]].
    intros _. exact E.
Qed.

Definition train_own (t : train_v) : list (string * Z) :=
  [("sprite_id", 253); ("max_speed", t_speed t); ("weight_low", t_weight t mod 256); ("weight_high", t_weight t / 256)].

Lemma train_inv : forall rid text t recs user, apply_events 0 start (rev user) = Some (t_manager t) -> train_sprites rid text t = Some recs ->
  exists p st h m props ec r, train_purchase t = Some p /\ hist 0 st h /\ make_switch 0 (s_man st) = Some m /\
   set_flag_props 0 (s_man st) (t_props t) = Some props /\ dict_get String.eqb (t_props t) "engine_class" = Some ec /\
   parts_records rid [("engine_class", ec)] 1 (t_parts t) = Some r /\
   recs = (purchase_recs p ++ ls_recs (t_head t) ++ [RName (rid (t_id t)); RDefine (rid (t_id t)) (merge (train_own t) props)])
          ++ RMap (rid (t_id t)) m (s_objs st) :: r /\
   summary 0 text p (t_liveries t) (gr_of (nm "cargo_subtype") (t_head t)) (t_text t) user h (s_objs st) /\
   (t_sounds t <> [] -> (forall c, wanted c "sound_effect" h = meaning c (ARaw (Some (vobj_of O_SOUND)))) /\
      exists d, (forall g, gr_of (nm "cargo_subtype") (t_head t) = Some g -> d = g) /\
        dict_get Z.eqb (s_objs st) O_SOUND = Some (sounds_obj d (t_sounds t))) /\
   (t_parts t <> [] -> (forall c, wanted c "articulated_part" h = meaning c (ARaw (Some (vobj_of O_PARTS)))) /\
      dict_get Z.eqb (s_objs st) O_PARTS = Some (parts_obj rid (t_parts t))).
Proof.
  intros rid text t recs user U H. unfold train_sprites in H.
  match type of H with (if ?b then _ else _) = _ => destruct b; [|discriminate H] end.
  destruct (train_purchase t) as [p|] eqn:EP; [|discriminate H]. cbn [bind] in H.
  destruct (gen_purchase 0 p (mk_vst [] [] (t_manager t))) as [s1|] eqn:E1; [|discriminate H]. cbn [bind] in H.
  assert (H0 : hist 0 (mk_vst [] [] (t_manager t)) user) by exact U.
  destruct (purchase_put _ _ _ _ _ H0 E1) as (h1 & A1 & B1 & C1 & D1 & F1 & G1 & R1).
  destruct (make_graphics 0 (t_head t) 0 s1) as [s2|] eqn:E2; [|discriminate H]. cbn [bind] in H.
  destruct (make_graphics_put _ _ _ _ _ _ A1 E2) as (h2 & A2 & B2 & C2 & D2 & F2 & G2 & K2 & R2).
  destruct (set_text 0 text (t_text t) s2) as [s3|] eqn:E3; [|discriminate H]. cbn [bind] in H.
  destruct (text_put _ _ _ _ _ _ A2 E3) as (h3 & A3 & B3 & C3 & D3 & F3 & K3 & R3).
  destruct (set_names 0 text (t_liveries t) s3) as [s4|] eqn:E4; [|discriminate H]. cbn [bind] in H.
  destruct (names_put _ _ _ _ _ _ A3 E4) as (h4 & A4 & B4 & C4 & D4 & F4 & K4 & R4).
  destruct (set_sounds (t_sounds t) s4) as [s5|] eqn:E5; [|discriminate H]. cbn [bind] in H.
  destruct (sounds_put _ _ _ _ A4 E5) as (h5 & A5 & B5 & C5 & D5 & F5 & K5 & R5).
  destruct (set_parts rid (t_parts t) s5) as [s6|] eqn:E6; [|discriminate H]. cbn [bind] in H.
  destruct (parts_put _ _ _ _ _ A5 E6) as (h6 & A6 & B6 & C6 & D6 & F6 & K6 & R6).
  destruct (set_flag_props 0 (s_man s6) (t_props t)) as [props|] eqn:E7; [|discriminate H]. cbn [bind] in H. cbv zeta in H.
  match type of H with bind (make_map 0 _ ?s) _ = _ => set (s7 := s) in H end.
  destruct (make_map 0 (rid (t_id t)) s7) as [s8|] eqn:E8; [|discriminate H]. cbn [bind] in H.
  destruct (dict_get String.eqb (t_props t) "engine_class") as [ec|] eqn:EC; [|discriminate H]. cbn [bind] in H.
  destruct (parts_records rid [("engine_class", ec)] 1 (t_parts t)) as [r|] eqn:ER; [|discriminate H]. cbn [bind] in H.
  apply some_inj in H. subst recs.
  destruct (make_map_ok 0 _ s7 h6 _ eq_refl A6 E8) as (m & M & R8).
  exists p, s6, h6, m, props, ec, r. split; [reflexivity|]. split; [exact A6|]. split; [exact M|]. split; [exact E7|]. split; [reflexivity|].
  split; [exact ER|]. split.
  { rewrite R8. unfold s7. cbn [emit s_recs s_objs]. rewrite R6, R5, R4, R3, R2, R1. cbn [s_recs]. rewrite app_nil_l, <- !app_assoc. reflexivity. }
  assert (WG : wanted CGraphics "graphics" h6 = wanted CGraphics "graphics" h2).
  { rewrite C6, C5, C4, C3 by discriminate. reflexivity. }
  change (code_at 0) with (nm "cargo_subtype") in B2, G2.
  split.
  { constructor.
    - rewrite WG, B2. destruct (gr_of (nm "cargo_subtype") (t_head t)); [reflexivity|]. exact B1.
    - intros g Eg. rewrite K6, K5, K4, K3 by discriminate. exact (G2 g Eg).
    - rewrite WG, C2. exact C1.
    - intros s Es. rewrite K6, K5, K4, K3, K2 by discriminate. exact (G1 s Es).
    - intros c. rewrite C6, C5, C4 by discriminate. rewrite B3. destruct (t_text t); [reflexivity|]. now rewrite D2, D1 by discriminate.
    - intros s Es. rewrite K6, K5, K4 by discriminate. exact (F3 s Es).
    - intros c. rewrite C6, C5 by discriminate. rewrite B4. destruct (1 <? len (t_liveries t)); [reflexivity|]. now rewrite C3, D2, D1 by discriminate.
    - intros L. rewrite K6, K5 by discriminate. exact (F4 L). }
  split.
  - intros N. split.
    + intros c. rewrite C6 by discriminate. rewrite B5. destruct (t_sounds t); [contradiction|reflexivity].
    + destruct (F5 N) as (d & GD & Q). exists d. split; [|rewrite K6 by discriminate; exact Q].
      intros g Eg. assert (GO : graphics_obj s4 = Some g).
      { apply (graphics_obj_ok 0 s4 h4 g eq_refl A4).
        - rewrite C4, C3 by discriminate. rewrite B2, Eg. reflexivity.
        - rewrite K4, K3 by discriminate. exact (G2 g Eg). }
      rewrite GO in GD. now apply some_inj in GD.
  - intros N. split; [|exact (F6 N)]. intros c. rewrite B6. destruct (t_parts t); [contradiction|reflexivity].
Qed.

Lemma part_inv : forall rid ec pos p l user, apply_events 0 start (rev user) = Some (p_manager p) -> part_records rid ec pos p = Some l ->
  exists st h m props, hist 0 st h /\ make_switch 0 (s_man st) = Some m /\ set_flag_props 0 (s_man st) (p_props p) = Some props /\
   l = (ls_recs (p_liveries p) ++ [RDefine (rid (p_id p)) (merge (("sprite_id", 253) :: ec) props)]) ++ [RMap (rid (p_id p)) m (s_objs st)] /\
   (p_liveries p <> [] -> fst (wanted CGraphics "graphics" h) = Some (vobj_of O_GRAPHICS) /\
      dict_get Z.eqb (s_objs st) O_GRAPHICS = Some (livery_graphics false (code_at pos) (p_liveries p))).
Proof.
  intros rid ec pos p l user U H. unfold part_records in H.
  destruct (make_graphics 0 (p_liveries p) pos (mk_vst [] [] (p_manager p))) as [s1|] eqn:E1; [|discriminate H]. cbn [bind] in H.
  assert (H0 : hist 0 (mk_vst [] [] (p_manager p)) user) by exact U.
  destruct (make_graphics_put _ _ _ _ _ _ H0 E1) as (h1 & A1 & B1 & C1 & D1 & F1 & G1 & K1 & R1).
  destruct (set_flag_props 0 (s_man s1) (p_props p)) as [props|] eqn:E2; [|discriminate H]. cbn [bind] in H.
  match type of H with bind (make_map 0 _ ?s) _ = _ => set (s2 := s) in H end.
  destruct (make_map 0 (rid (p_id p)) s2) as [s3|] eqn:E3; [|discriminate H]. cbn [bind] in H. apply some_inj in H. subst l.
  destruct (make_map_ok 0 _ s2 h1 _ eq_refl A1 E3) as (m & M & R3).
  exists s1, h1, m, props. split; [exact A1|]. split; [exact M|]. split; [exact E2|]. split.
  - rewrite R3. unfold s2. cbn [emit s_recs s_objs]. rewrite R1. cbn [s_recs]. rewrite app_nil_l. reflexivity.
  - intros N. rewrite B1. destruct (p_liveries p) as [|l0 ls]; [contradiction|]. cbn [gr_of] in *. split; [reflexivity|]. now apply G1.
Qed.
Lemma parts_nth : forall rid ec ps pos r i p, parts_records rid ec pos ps = Some r -> nth_error ps i = Some p ->
  exists a l b, r = a ++ l ++ b /\ part_records rid ec (pos + Z.of_nat i) p = Some l.
Proof.
  intros rid ec ps. induction ps as [|q ps IH]; intros pos r i p H N; [now destruct i|].
  cbn [parts_records] in H. destruct (part_records rid ec pos q) as [l|] eqn:E; [|discriminate H]. cbn [bind] in H.
  destruct (parts_records rid ec (pos + 1) ps) as [r'|] eqn:E'; [|discriminate H]. cbn [bind] in H. apply some_inj in H. subst r.
  destruct i as [|i].
  - cbn [nth_error] in N. apply some_inj in N. subst q. exists [], l, r'. split; [reflexivity|]. now rewrite Z.add_0_r.
  - cbn [nth_error] in N. destruct (IH _ _ _ _ E' N) as (a & l' & b & -> & P). exists (l ++ a), l', b.
    split; [now rewrite <- app_assoc|]. replace (pos + Z.of_nat (S i)) with (pos + 1 + Z.of_nat i) by lia. exact P.
Qed.
Lemma ls_recs_ok : forall ls, ls <> [] -> ls_recs ls = livery_records ls.
Proof. intros [|l ls] H; [contradiction|reflexivity]. Qed.
