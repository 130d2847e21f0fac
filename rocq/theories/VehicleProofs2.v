From Coq Require Import ZArith List Bool String Lia.
From Verif Require Import Base BaseFacts RecordsModel ContainerProofs IdMapProofs DecodeModel VA2Model VA2Vars ParserModel
  CallbackModel SpecCallback CallbackProofs CallbackProofs2 PropsCallback LibModel VehicleModel SpecVehicle VehicleProofs.
Import ListNotations.
Open Scope string_scope.
Open Scope list_scope.
Open Scope Z_scope.

(** A step keeps what it is not about. *)
Lemma step_wanted : forall f n o r st st' h, step f n o r st st' -> hist f st h ->
  exists h', hist f st' h' /\ (forall c m, m <> n -> wanted c m h' = wanted c m h) /\ (forall c m, wanted_prop c m h' = wanted_prop c m h).
Proof.
  intros f n o r st st' h (A & _ & _) H. destruct (A h H) as (l & H' & L). exists (l ++ h). split; [exact H'|]. split.
  - intros c m N. apply wanted_skip. intros e E. rewrite (proj1 (L e E)). congruence.
  - intros c m. apply wanted_prop_skip. intros e E. exact (proj2 (L e E)).
Qed.

Lemma wanted_skip1 : forall c m e h, ev_name e <> m -> wanted c m (e :: h) = wanted c m h.
Proof. intros c m e h N. apply (wanted_skip c m [e] h). intros e' [<-|[]]. exact N. Qed.
Definition vobj_of (o : Z) : vobj := mk_vobj o None.

(** What the library has said about each callback at the end. *)
Record summary (f : Z) (text : string -> Z) (p : option Z) (ls : list livery) (gr : option hobj) (t : option string)
  (user h : list event) (objs : list (Z * hobj)) : Prop := mk_summary {
  sm_gfx : fst (wanted CGraphics "graphics" h) = match gr with Some _ => Some (vobj_of O_GRAPHICS) | None => fst (wanted CGraphics "graphics" user) end;
  sm_gobj : forall g, gr = Some g -> dict_get Z.eqb objs O_GRAPHICS = Some g;
  sm_pur : snd (wanted CGraphics "graphics" h) = match p with Some _ => Some (vobj_of O_PURCHASE) | None => snd (wanted CGraphics "graphics" user) end;
  sm_pobj : forall s, p = Some s -> dict_get Z.eqb objs O_PURCHASE = Some (HListed 0);
  sm_text : forall c, wanted c "additional_text" h = match t with Some _ => meaning c (ARaw (Some (vobj_of O_TEXT))) | None => wanted c "additional_text" user end;
  sm_tobj : forall s, t = Some s -> dict_get Z.eqb objs O_TEXT = Some (HInt (text s));
  sm_names : forall c, wanted c "cargo_subtype_text" h =
     if 1 <? len ls then meaning c (ARaw (Some (vobj_of O_NAMES))) else wanted c "cargo_subtype_text" user;
  sm_nobj : 1 < len ls -> dict_get Z.eqb objs O_NAMES = Some (livery_names text ls) }.

Lemma graphics_put : forall f g st st' h, hist f st h ->
  put f (EField "graphics" false (new O_GRAPHICS)) O_GRAPHICS g st = Some st' ->
  exists h', hist f st' h' /\ wanted CGraphics "graphics" h' = (Some (vobj_of O_GRAPHICS), snd (wanted CGraphics "graphics" h))
   /\ (forall c m, m <> "graphics" -> wanted c m h' = wanted c m h) /\ (forall c m, wanted_prop c m h' = wanted_prop c m h)
   /\ dict_get Z.eqb (s_objs st') O_GRAPHICS = Some g
   /\ forall k, k <> O_GRAPHICS -> dict_get Z.eqb (s_objs st') k = dict_get Z.eqb (s_objs st) k.
Proof.
  intros f g st st' h H P. exists (EField "graphics" false (new O_GRAPHICS) :: h). split; [exact (hist_put _ _ _ _ _ _ _ H P)|].
  split; [reflexivity|]. split.
  - intros c m N. apply wanted_skip1. cbn [ev_name]. congruence.
  - split; [reflexivity|]. split; [now rewrite (put_objs _ _ _ _ _ _ O_GRAPHICS P)|].
    intros k K. rewrite (put_objs _ _ _ _ _ _ k P). destruct (Z.eqb_spec k O_GRAPHICS); [contradiction|reflexivity].
Qed.
Lemma purchase_put : forall f p st st' h, hist f st h -> gen_purchase f p st = Some st' ->
  exists h', hist f st' h' /\ fst (wanted CGraphics "graphics" h') = fst (wanted CGraphics "graphics" h)
   /\ snd (wanted CGraphics "graphics" h') = match p with Some _ => Some (vobj_of O_PURCHASE) | None => snd (wanted CGraphics "graphics" h) end
   /\ (forall c m, m <> "graphics" -> wanted c m h' = wanted c m h) /\ (forall c m, wanted_prop c m h' = wanted_prop c m h)
   /\ (forall s, p = Some s -> dict_get Z.eqb (s_objs st') O_PURCHASE = Some (HListed 0))
   /\ s_recs st' = s_recs st ++ purchase_recs p.
Proof.
  intros f [s|] st st' h H P; cbn [gen_purchase] in P.
  - exists (EField "graphics" true (new O_PURCHASE) :: h).
    split; [exact (hist_put _ _ _ _ _ _ _ (hist_emit _ _ _ _ H) P)|]. split; [reflexivity|]. split; [reflexivity|]. split.
    + intros c m N. apply wanted_skip1. cbn [ev_name]. congruence.
    + split; [reflexivity|]. split; [|now rewrite (put_recs _ _ _ _ _ _ P)].
      intros s' _. now rewrite (put_objs _ _ _ _ _ _ O_PURCHASE P).
  - apply some_inj in P. subst st'. exists h. repeat split; try reflexivity; try assumption; [intros s; discriminate|now rewrite app_nil_r].
Qed.
Lemma assign_put : forall f n o g st st' h, hist f st h -> put f (EAssign n (ARaw (new o))) o g st = Some st' ->
  exists h', hist f st' h' /\ (forall c, wanted c n h' = meaning c (ARaw (Some (vobj_of o))))
   /\ (forall c m, m <> n -> wanted c m h' = wanted c m h) /\ (forall c m, wanted_prop c m h' = wanted_prop c m h)
   /\ dict_get Z.eqb (s_objs st') o = Some g.
Proof.
  intros f n o g st st' h H P. exists (EAssign n (ARaw (new o)) :: h). split; [exact (hist_put _ _ _ _ _ _ _ H P)|].
  split; [intros c; cbn [wanted]; now rewrite String.eqb_refl|]. split.
  - intros c m N. apply wanted_skip1. cbn [ev_name]. congruence.
  - split; [reflexivity|]. rewrite (put_objs _ _ _ _ _ _ o P). now rewrite Z.eqb_refl.
Qed.

(** text, names: as assignments or nothing. *)
Lemma text_put : forall f text t st st' h, hist f st h -> set_text f text t st = Some st' ->
  exists h', hist f st' h' /\ (forall c, wanted c "additional_text" h' =
     match t with Some _ => meaning c (ARaw (Some (vobj_of O_TEXT))) | None => wanted c "additional_text" h end)
   /\ (forall c m, m <> "additional_text" -> wanted c m h' = wanted c m h) /\ (forall c m, wanted_prop c m h' = wanted_prop c m h)
   /\ (forall s, t = Some s -> dict_get Z.eqb (s_objs st') O_TEXT = Some (HInt (text s)))
   /\ (forall k, k <> O_TEXT -> dict_get Z.eqb (s_objs st') k = dict_get Z.eqb (s_objs st) k) /\ s_recs st' = s_recs st.
Proof.
  intros f text t st st' h H P. pose proof (text_step _ _ _ _ _ P) as (_ & K & R). rewrite app_nil_r in R.
  destruct t as [s|]; cbn [set_text] in P.
  - destruct (assign_put _ _ _ _ _ _ _ H P) as (h' & A & B & C & D & E). exists h'.
    split; [exact A|]. split; [exact B|]. split; [exact C|]. split; [exact D|]. split; [|split; [exact K|exact R]].
    intros s' Es. apply some_inj in Es. now subst s'.
  - apply some_inj in P. subst st'. exists h. repeat split; try reflexivity; try assumption. intros s; discriminate.
Qed.
Lemma names_put : forall f text ls st st' h, hist f st h -> set_names f text ls st = Some st' ->
  exists h', hist f st' h' /\ (forall c, wanted c "cargo_subtype_text" h' =
     if 1 <? len ls then meaning c (ARaw (Some (vobj_of O_NAMES))) else wanted c "cargo_subtype_text" h)
   /\ (forall c m, m <> "cargo_subtype_text" -> wanted c m h' = wanted c m h) /\ (forall c m, wanted_prop c m h' = wanted_prop c m h)
   /\ (1 < len ls -> dict_get Z.eqb (s_objs st') O_NAMES = Some (livery_names text ls))
   /\ (forall k, k <> O_NAMES -> dict_get Z.eqb (s_objs st') k = dict_get Z.eqb (s_objs st) k) /\ s_recs st' = s_recs st.
Proof.
  intros f text ls st st' h H P. pose proof (names_step _ _ _ _ _ P) as (_ & K & R). rewrite app_nil_r in R.
  unfold set_names in P. destruct (1 <? len ls) eqn:L.
  - destruct (assign_put _ _ _ _ _ _ _ H P) as (h' & A & B & C & D & E). exists h'.
    split; [exact A|]. split; [exact B|]. split; [exact C|]. split; [exact D|]. split; [|split; [exact K|exact R]]. intros _. exact E.
  - apply some_inj in P. subst st'. exists h. apply Z.ltb_ge in L. repeat split; try reflexivity; try assumption. lia.
Qed.

(** Reading the graphics back. *)
Lemma graphics_read : forall f st h, is_vehicle_feature f = true -> hist f st h -> graphics_default st = fst (wanted CGraphics "graphics" h).
Proof.
  intros f st h V H. unfold graphics_default. pose proof (tracks_start _ _ _ H) as T. rewrite rev_involutive in T.
  destruct (vehicle_in f V) as (_ & _ & N). rewrite <- (graphics_value _ _ _ T N). unfold descr_get. cbn [fst snd].
  destruct (dict_get Z.eqb (m_callbacks (s_man st)) 0) as [c|]; reflexivity.
Qed.
Lemma graphics_obj_ok : forall f st h g, is_vehicle_feature f = true -> hist f st h ->
  fst (wanted CGraphics "graphics" h) = Some (vobj_of O_GRAPHICS) -> dict_get Z.eqb (s_objs st) O_GRAPHICS = Some g -> graphics_obj st = Some g.
Proof.
  intros f st h g V H W O. unfold graphics_obj. rewrite (graphics_read f st h V H), W. cbn [bind v_id vobj_of]. now rewrite O.
Qed.

(** Road vehicles and ships. *)
Lemma vehicle_inv : forall f text extra own v recs user en eo, is_vehicle_feature f = true ->
  (forall st st', extra st = Some st' -> step f en eo [] st st') ->
  ~ In en ["graphics"; "additional_text"; "cargo_subtype_text"] -> ~ In eo [O_GRAPHICS; O_PURCHASE; O_TEXT; O_NAMES] ->
  apply_events f start (rev user) = Some (v_manager v) -> vehicle_sprites f text extra own v = Some recs ->
  exists st st1 st2 h1 h m props, hist f st h /\ make_switch f (s_man st) = Some m /\ set_flag_props f (s_man st) (v_props v) = Some props /\
   recs = purchase_recs (v_purchase v) ++ [RName (v_vid v); RDefine (v_vid v) (merge own props)]
          ++ match v_liveries v with [] => [] | ls => livery_records ls end ++ [RMap (v_vid v) m (s_objs st)] /\
   summary f text (v_purchase v) (v_liveries v) (match v_liveries v with [] => None | ls => Some (livery_graphics true (nm "cargo_subtype") ls) end)
           (v_text v) user h (s_objs st) /\
   valid_liveries (v_liveries v) = true /\
   (forall c n, ~ In n ["graphics"; "additional_text"; "cargo_subtype_text"; en] -> wanted c n h = wanted c n user) /\
   (forall c n, wanted_prop c n h = wanted_prop c n user) /\
   (hist f st1 h1 /\ extra st1 = Some st2 /\ (forall c, wanted c en h1 = wanted c en user) /\
     fst (wanted CGraphics "graphics" h1) = fst (wanted CGraphics "graphics" h) /\
     (forall h2, hist f st2 h2 -> exists h3, hist f st h3 /\ (forall c, wanted c en h3 = wanted c en h2)) /\
     dict_get Z.eqb (s_objs st) eo = dict_get Z.eqb (s_objs st2) eo /\
     (v_liveries v <> [] -> graphics_obj st1 = Some (livery_graphics true (nm "cargo_subtype") (v_liveries v)))).
Proof.
  intros f text extra own v recs user en eo V X NE NO U H. unfold vehicle_sprites in H.
  destruct (valid_liveries (v_liveries v)) eqn:VL; [|discriminate H].
  destruct (gen_purchase f (v_purchase v) (mk_vst [] [] (v_manager v))) as [s1|] eqn:E1; [|discriminate H]. cbn [bind] in H.
  assert (H0 : hist f (mk_vst [] [] (v_manager v)) user) by exact U.
  destruct (purchase_put _ _ _ _ _ H0 E1) as (h1 & A1 & B1 & C1 & D1 & F1 & G1 & R1).
  set (gr := match v_liveries v with [] => None | ls => Some (livery_graphics true (nm "cargo_subtype") ls) end) in *.
  match type of H with bind ?m _ = _ => destruct m as [s2|] eqn:E2; [|discriminate H] end. cbn [bind] in H.
  assert (exists h2, hist f s2 h2 /\ fst (wanted CGraphics "graphics" h2) = match gr with Some _ => Some (vobj_of O_GRAPHICS) | None => fst (wanted CGraphics "graphics" h1) end
    /\ snd (wanted CGraphics "graphics" h2) = snd (wanted CGraphics "graphics" h1)
    /\ (forall c m, m <> "graphics" -> wanted c m h2 = wanted c m h1) /\ (forall c m, wanted_prop c m h2 = wanted_prop c m h1)
    /\ (forall g, gr = Some g -> dict_get Z.eqb (s_objs s2) O_GRAPHICS = Some g)
    /\ (forall k, k <> O_GRAPHICS -> dict_get Z.eqb (s_objs s2) k = dict_get Z.eqb (s_objs s1) k) /\ s_recs s2 = s_recs s1)
    as (h2 & A2 & B2 & C2 & D2 & F2 & G2 & K2 & R2).
  { unfold gr. destruct (v_liveries v) as [|l ls].
    - apply some_inj in E2. subst s2. exists h1. repeat split; try reflexivity; try assumption. intros g; discriminate.
    - destruct (graphics_put _ _ _ _ _ A1 E2) as (h2 & A & B & C & D & E & F). exists h2.
      split; [exact A|]. split; [now rewrite B|]. split; [now rewrite B|]. split; [exact C|]. split; [exact D|]. split.
      + intros g Eg. apply some_inj in Eg. now subst g.
      + split; [exact F|exact (put_recs _ _ _ _ _ _ E2)]. }
  destruct (set_text f text (v_text v) s2) as [s3|] eqn:E3; [|discriminate H]. cbn [bind] in H.
  destruct (text_put _ _ _ _ _ _ A2 E3) as (h3 & A3 & B3 & C3 & D3 & F3 & K3 & R3).
  destruct (extra s3) as [s4|] eqn:E4; [|discriminate H]. cbn [bind] in H.
  pose proof (X _ _ E4) as S4. destruct (step_wanted _ _ _ _ _ _ _ S4 A3) as (h4 & A4 & C4 & D4).
  destruct S4 as (S4 & K4 & R4). rewrite app_nil_r in R4.
  destruct (set_names f text (v_liveries v) s4) as [s5|] eqn:E5; [|discriminate H]. cbn [bind] in H.
  destruct (names_put _ _ _ _ _ _ A4 E5) as (h5 & A5 & B5 & C5 & D5 & F5 & K5 & R5).
  destruct (set_flag_props f (s_man s5) (v_props v)) as [props|] eqn:E6; [|discriminate H]. cbn [bind] in H.
  cbn [In] in NE, NO.
  match type of H with bind (make_map f _ ?s) _ = _ => set (s6 := s) in H end.
  destruct (make_map f (v_vid v) s6) as [s7|] eqn:E7; [|discriminate H]. cbn [bind] in H. apply some_inj in H. subst recs.
  assert (M6 : s_man s6 = s_man s5) by (unfold s6; destruct (v_liveries v); reflexivity).
  assert (O6 : s_objs s6 = s_objs s5) by (unfold s6; destruct (v_liveries v); reflexivity).
  assert (A6 : hist f s6 h5) by (unfold hist; rewrite M6; exact A5).
  destruct (make_map_ok _ _ _ _ _ V A6 E7) as (m & M & R7). rewrite M6 in M. rewrite O6 in R7.
  exists s5, s3, s4, h3, h5, m, props. split; [exact A5|]. split; [exact M|]. split; [exact E6|]. split.
  { rewrite R7. assert (R6 : s_recs s6 = purchase_recs (v_purchase v) ++ [RName (v_vid v); RDefine (v_vid v) (merge own props)]
          ++ match v_liveries v with [] => [] | ls => livery_records ls end).
    { unfold s6. destruct (v_liveries v); cbn [emit s_recs]; rewrite R5, R4, R3, R2, R1; cbn [s_recs]; rewrite ?app_nil_l, <- ?app_assoc, ?app_nil_r; reflexivity. }
    rewrite R6, <- !app_assoc. reflexivity. }
  assert (NG : "graphics" <> en) by (intros Q; apply NE; now left).
  assert (NT : "additional_text" <> en) by (intros Q; apply NE; right; now left).
  assert (NN : "cargo_subtype_text" <> en) by (intros Q; apply NE; right; right; now left).
  assert (OG : O_GRAPHICS <> eo) by (intros Q; apply NO; now left).
  assert (OP : O_PURCHASE <> eo) by (intros Q; apply NO; right; now left).
  assert (OT : O_TEXT <> eo) by (intros Q; apply NO; right; right; now left).
  assert (ON : O_NAMES <> eo) by (intros Q; apply NO; right; right; right; now left).
  assert (WG : wanted CGraphics "graphics" h5 = wanted CGraphics "graphics" h2).
  { rewrite C5 by discriminate. rewrite C4 by exact NG. now rewrite C3 by discriminate. }
  split.
  { constructor.
    - rewrite WG, B2. destruct gr; [reflexivity|]. exact B1.
    - intros g Eg. rewrite K5 by discriminate. rewrite K4 by exact OG. rewrite K3 by discriminate. exact (G2 g Eg).
    - rewrite WG, C2. exact C1.
    - intros s Es. rewrite K5 by discriminate. rewrite K4 by exact OP. rewrite K3 by discriminate. rewrite K2 by discriminate. exact (G1 s Es).
    - intros c. rewrite C5 by discriminate. rewrite C4 by exact NT. rewrite B3. destruct (v_text v); [reflexivity|].
      rewrite D2 by discriminate. now rewrite D1 by discriminate.
    - intros s Es. rewrite K5 by discriminate. rewrite K4 by exact OT. exact (F3 s Es).
    - intros c. rewrite B5. destruct (1 <? len (v_liveries v)); [reflexivity|]. rewrite C4 by exact NN. rewrite C3 by discriminate.
      rewrite D2 by discriminate. now rewrite D1 by discriminate.
    - exact F5. }
  split; [reflexivity|]. split.
  { intros c n N. cbn [In] in N. rewrite C5 by (intros Q; apply N; subst; auto 10). rewrite C4 by (intros Q; apply N; subst; auto 10).
    rewrite C3 by (intros Q; apply N; subst; auto 10). rewrite D2 by (intros Q; apply N; subst; auto 10).
    apply D1. intros Q; apply N; subst; auto 10. }
  split; [intros c n; now rewrite D5, D4, D3, F2, F1|].
  split; [exact A3|]. split; [exact E4|]. split.
  { intros c. rewrite C3 by (intros Q; apply NE; subst; auto 10). rewrite D2 by (intros Q; apply NE; subst; auto 10).
    apply D1. intros Q; apply NE; subst; auto 10. }
  split; [rewrite WG; now rewrite C3 by discriminate|]. split.
  - intros h' H'. destruct (names_put _ _ _ _ _ _ H' E5) as (h6 & A7 & _ & C7 & _). exists h6. split; [exact A7|].
    intros c. apply C7. intros Q; apply NE; subst; auto 10.
  - split; [apply K5; congruence|]. intros NL.
    assert (Eg : gr = Some (livery_graphics true (nm "cargo_subtype") (v_liveries v))) by (unfold gr; destruct (v_liveries v); [contradiction|reflexivity]).
    apply (graphics_obj_ok f s3 h3 _ V A3).
    + rewrite C3 by discriminate. rewrite B2, Eg. reflexivity.
    + rewrite K3 by discriminate. exact (G2 _ Eg).
Qed.
