From Coq Require Import ZArith List Bool String Lia.
From Verif Require Import Base BaseFacts RecordsModel ContainerProofs VA2Model VA2Vars CallbackModel SpecCallback CallbackProofs.
Import ListNotations.
Open Scope string_scope.
Open Scope list_scope.
Open Scope Z_scope.

Lemma vehicle_change : forall f, is_vehicle_feature f = true -> descriptor f "change_properties" = Some (54, CDual).
Proof.
  intros f H. unfold is_vehicle_feature in H. apply andb_true_iff in H as [H1 H2].
  assert (f = 0 \/ f = 1 \/ f = 2 \/ f = 3) by lia. destruct H as [->|[->|[->| ->]]]; reflexivity.
Qed.
Lemma graphics_own : forall f, ~ In f [16; 18; 19] -> own f "graphics".
Proof.
  intros f H m k c c' H1 H2.
  pose proof (proj2 (descriptor_spec f "graphics" 0 CGraphics) (or_intror (conj eq_refl (conj eq_refl eq_refl)))) as E.
  rewrite E in H1. injection H1 as <- <-. destruct (descriptor_uniq f m "graphics" 0 c' CGraphics) as [A _]; auto.
Qed.
Lemma own_nonzero : forall f n k c, descriptor f n = Some (k, c) -> (~ In f [16; 18; 19] \/ k <> 0) -> own f n.
Proof.
  intros f n k c H Hk m k' c1 c2 H1 H2. rewrite H in H1. injection H1 as <- <-.
  destruct (descriptor_uniq f m n k c2 c) as [A _]; auto.
Qed.
Lemma callback_descriptor : forall f n cb c, callback_of f n cb c -> descriptor f n = Some (cb, c).
Proof. intros f n cb c H. apply descriptor_spec. left. exact H. Qed.
Lemma graphics_descriptor : forall f, descriptor f "graphics" = Some (0, CGraphics).
Proof. intros f. apply descriptor_spec. right. auto. Qed.

Definition prop_switches (m : manager) (f : Z) (g : option vobj) : option target * option target :=
  if is_vehicle_feature f && existsb (fun kc => is_set (snd kc)) (m_props m) then
    match make_switches (m_props m) (or_zero g) with Some x => x | None => (None, None) end
  else (None, None).

(** What make_switch builds, by lookup. *)
Lemma make_switch_spec : forall f m hist res, tracks f m hist -> make_switch f m = Some res ->
  exists dc pc,
  let g := values (dict_get Z.eqb (m_callbacks m) 0) in
  let ps := prop_switches m f (fst g) in
  (has_graphics f = true -> fst g <> None) /\
  (is_vehicle_feature f && existsb (fun kc => is_set (snd kc)) (m_props m) = true ->
     values (dict_get Z.eqb (m_callbacks m) 54) = (None, None)
     /\ make_switches (m_props m) (or_zero (fst g)) = Some ps) /\
  fst res = (match dc with [] => if has_graphics f then option_map TUser (fst g) else None
             | _ => Some (TSwitch "current_callback" dc (or_zero (fst g))) end) /\
  snd res = (if has_purchase f then
       match pc, snd g with
       | _ :: _, gp => [(255, TSwitch "current_callback" pc (or_zero (match gp with None => fst g | Some _ => gp end)))]
       | [], Some gp => if has_graphics f then [(255, TUser gp)] else []
       | [], None => []
       end else []) /\
  (forall k, dict_get Z.eqb dc k = (if k =? 0 then None else user (fst (values (dict_get Z.eqb (m_callbacks m) k))) (if k =? 54 then fst ps else None))) /\
  (forall k, dict_get Z.eqb pc k = (if k =? 0 then None else user (snd (values (dict_get Z.eqb (m_callbacks m) k))) (if k =? 54 then snd ps else None))).
Proof.
  intros f m hist res T H. unfold make_switch in H.
  destruct (descr_get (0, CGraphics) (m_callbacks m)) as [g cbs] eqn:Hg.
  destruct (is_some (c_default g) || negb (has_graphics f)) eqn:G0; [|discriminate].
  assert (Vg : values (dict_get Z.eqb (m_callbacks m) 0) = (c_default g, c_purchase g)
    /\ NoDup (map fst cbs)
    /\ forall k, values (dict_get Z.eqb cbs k) = values (dict_get Z.eqb (m_callbacks m) k)).
  { apply descr_get_spec in Hg as [[A ->]|(A & B & ->)]; cbn [fst snd] in *.
    - rewrite A. split; [reflexivity|]. split; [exact (t_nodup _ _ _ T)|reflexivity].
    - rewrite A. subst g. split; [reflexivity|]. split; [apply dset_nodup; exact (t_nodup _ _ _ T)|].
      intros k. rewrite dset_get. destruct (Z.eqb_spec k 0) as [->|]; [rewrite A|]; reflexivity. }
  destruct Vg as (Vg & Nc & Vc).
  apply bind_some in H as ([[dc0 pc0] cbs'] & H1 & H).
  assert (P : exists ps, prop_switches m f (c_default g) = ps
    /\ (is_vehicle_feature f && existsb (fun kc => is_set (snd kc)) (m_props m) = true ->
        values (dict_get Z.eqb (m_callbacks m) 54) = (None, None) /\ make_switches (m_props m) (or_zero (c_default g)) = Some ps)
    /\ dc0 = match fst ps with Some t => [(54, t)] | None => [] end
    /\ pc0 = match snd ps with Some t => [(54, t)] | None => [] end
    /\ NoDup (map fst cbs')
    /\ forall k, values (dict_get Z.eqb cbs' k) = values (dict_get Z.eqb (m_callbacks m) k)).
  { destruct (is_vehicle_feature f && existsb (fun kc => is_set (snd kc)) (m_props m)) eqn:Hp.
    - apply bind_some in H1 as (d & Hd & H1). pose proof Hp as Hp'. apply andb_true_iff in Hp' as [Hv _].
      rewrite (vehicle_change f Hv) in Hd. apply some_inj in Hd. subst d.
      destruct (descr_get (54, CDual) cbs) as [ch cbs2] eqn:Hch.
      destruct (is_set ch) eqn:Sch; [discriminate|]. cbn [negb] in H1.
      apply bind_some in H1 as ([ds ps] & Hm & H1). apply some_inj in H1. apply pair_inj in H1 as [H1 E3].
      apply pair_inj in H1 as [E1 E2]. subst dc0 pc0 cbs'. exists (ds, ps).
      split; [unfold prop_switches; rewrite Hp, Hm; reflexivity|]. split; [|split; [reflexivity|split; [reflexivity|]]].
      + intros _. split; [|exact Hm]. rewrite <- Vc.
        apply descr_get_spec in Hch as [[A B]|(A & B & C)]; cbn [fst snd] in *; rewrite A; [|reflexivity].
        assert (Cl : c_class ch = CDual).
        { assert (Q : exists o, dict_get Z.eqb (m_callbacks m) 54 = Some o /\ c_class o = c_class ch).
          { pose proof Hg as Hg'. apply descr_get_spec in Hg' as [[A' B']|(A' & B' & C')]; cbn [fst snd] in *.
            - rewrite B' in A. exists ch. split; [exact A|reflexivity].
            - rewrite C', dset_get in A. destruct (Z.eqb_spec 54 0); [discriminate|]. exists ch. split; [exact A|reflexivity]. }
          destruct Q as (o & Q1 & Q2). destruct (t_known _ _ _ T _ _ Q1) as (n & Q3).
          destruct (descriptor_uniq f n "change_properties" 54 (c_class o) CDual) as [_ E]; [right; lia|exact Q3|exact (vehicle_change f Hv)|].
          congruence. }
        unfold is_set in Sch. rewrite Cl in Sch. cbn [values].
        destruct (c_default ch), (c_purchase ch); try discriminate. reflexivity.
      + apply descr_get_spec in Hch as [[A B]|(A & B & C)]; cbn [fst snd] in *; subst cbs2.
        * split; [exact Nc|exact Vc].
        * subst ch. split; [apply dset_nodup; exact Nc|]. intros k. rewrite <- Vc, dset_get.
          destruct (Z.eqb_spec k 54) as [->|]; [rewrite A|]; reflexivity.
    - apply some_inj in H1. apply pair_inj in H1 as [H1 E3]. apply pair_inj in H1 as [E1 E2]. subst dc0 pc0 cbs'.
      exists (None, None). split; [unfold prop_switches; rewrite Hp; reflexivity|]. split; [discriminate|].
      split; [reflexivity|]. split; [reflexivity|]. split; [exact Nc|exact Vc]. }
  destruct P as (ps & Eps & Pch & -> & -> & Nc' & Vc').
  pose proof (collect_spec cbs' (match fst ps with Some t => [(54, t)] | None => [] end)
                (match snd ps with Some t => [(54, t)] | None => [] end) Nc') as Cs.
  destruct (collect cbs' _ _) as [dc pc]. cbn [fst snd] in Cs. apply some_inj in H. subst res.
  exists dc, pc. cbn zeta. rewrite Vg. cbn [fst snd]. rewrite Eps.
  split.
  { intros Hh. rewrite Hh in G0. cbn [negb] in G0. rewrite orb_false_r in G0. destruct (c_default g); [discriminate|discriminate]. }
  split; [exact Pch|]. split; [destruct dc; reflexivity|]. split; [reflexivity|].
  split; intros k; destruct (Cs k) as [C1 C2]; rewrite ?C1, ?C2, Vc'.
  - clear C1 C2. destruct (Z.eqb_spec k 0) as [Ek|Ek]; [subst k; destruct (fst ps); reflexivity|]. f_equal.
    destruct (fst ps); cbn [dict_get]; destruct (k =? 54); reflexivity.
  - clear C1 C2. destruct (Z.eqb_spec k 0) as [Ek|Ek]; [subst k; destruct (snd ps); reflexivity|]. f_equal.
    destruct (snd ps); cbn [dict_get]; destruct (k =? 54); reflexivity.
Qed.

(** The property switches, by lookup. *)
Lemma make_switches_spec : forall props t, NoDup (map fst props) ->
  Forall (fun kc => c_class (snd kc) = CDual \/ c_class (snd kc) = CDefault) props ->
  exists ds ps, make_switches props t = Some (ds, ps)
  /\ (forall f var d, In f variable_features -> forall cb info, request cb info var ->
      ds = Some d -> run f var d = match (
         match pval false (dict_get Z.eqb props (info mod 256)) with
         | Some v => Some (TUser (if forallb (fun kc => agree (snd kc)) props
                                  then match pval true (dict_get Z.eqb props (info mod 256)) with Some p => p | None => v end else v))
         | None => None end) with Some x => Some x | None => run f var t end)
  /\ (ds = None -> forall k, pval false (dict_get Z.eqb props k) = None)
  /\ (forall f var d, In f variable_features -> forall cb info, request cb info var ->
      ps = Some d -> run f var d = match (
         match pval true (dict_get Z.eqb props (info mod 256)) with
         | Some v => Some (TUser v)
         | None => if forallb (fun kc => agree (snd kc)) props
                   then option_map TUser (pval false (dict_get Z.eqb props (info mod 256))) else None end)
         with Some x => Some x | None => run f var t end)
  /\ (ps = None -> (forall k, pval true (dict_get Z.eqb props k) = None) /\ forallb (fun kc => agree (snd kc)) props = false).
Proof.
  intros props t N F.
  assert (F' : Forall (fun kc => c_class (snd kc) <> CGraphics) props).
  { eapply Forall_impl; [|exact F]. intros a [E|E]; rewrite E; discriminate. }
  destruct (prop_ranges_spec props [] [] true N (NoDup_nil _) (NoDup_nil _) F') as (dr & pr & E & Nd & Np & G).
  unfold make_switches. rewrite E. cbn [bind andb].
  assert (Gd : forall k, dict_get Z.eqb dr k = option_map TUser (pval false (dict_get Z.eqb props k))).
  { intros k. rewrite (proj1 (G k)). destruct (pval false _); reflexivity. }
  assert (Gp : forall k, dict_get Z.eqb pr k = option_map TUser (pval true (dict_get Z.eqb props k))).
  { intros k. rewrite (proj2 (G k)). destruct (pval true _); reflexivity. }
  assert (Pd : forall k, forallb (fun kc => agree (snd kc)) props = true -> pval false (dict_get Z.eqb props k) = None -> pval true (dict_get Z.eqb props k) = None).
  { intros k A. destruct (dict_get Z.eqb props k) as [c|] eqn:Ek; [|reflexivity]. apply dget_In in Ek.
    rewrite forallb_forall in A. specialize (A _ Ek). rewrite Forall_forall in F. specialize (F _ Ek). cbn [snd] in *.
    unfold agree, pval, is_set in *. destruct F as [F|F]; rewrite F in *; [|reflexivity].
    destruct (c_default c), (c_purchase c); cbn in *; congruence. }
  destruct (forallb (fun kc => agree (snd kc)) props) eqn:A.
  - eexists; eexists; split; [reflexivity|].
    assert (R : forall f var, In f variable_features -> forall cb info, request cb info var ->
      run f var (TSwitch "extra_callback_info1_byte" (dict_update dr pr) t) =
      match (match pval true (dict_get Z.eqb props (info mod 256)) with
             | Some v => Some (TUser v)
             | None => option_map TUser (pval false (dict_get Z.eqb props (info mod 256))) end)
      with Some x => Some x | None => run f var t end).
    { intros f var I cb info R. rewrite run_switch. destruct (code_request f var cb info I R) as [_ ->].
      rewrite (update_get _ _ _ Np), Gd, Gp.
      destruct (pval true _); cbn [option_map]; [reflexivity|]. destruct (pval false _); reflexivity. }
    split; [|split; [discriminate|split; [|discriminate]]].
    + intros f var d I cb info Rq Ed. apply some_inj in Ed. subst d. rewrite (R f var I cb info Rq).
      pose proof (Pd (info mod 256) eq_refl) as Q.
      destruct (pval false _) as [v|]; [|rewrite (Q eq_refl); reflexivity].
      destruct (pval true _); reflexivity.
    + intros f var d I cb info Rq Ed. apply some_inj in Ed. subst d. exact (R f var I cb info Rq).
  - eexists; eexists; split; [reflexivity|]. split; [|split; [|split]].
    + intros f var d I cb info Rq Ed. destruct dr as [|x dr]; [discriminate|]. apply some_inj in Ed. subst d.
      rewrite run_switch. destruct (code_request f var cb info I Rq) as [_ ->]. rewrite Gd.
      destruct (pval false _); reflexivity.
    + intros Ed k. destruct dr as [|x dr]; [|discriminate]. specialize (Gd k). cbn in Gd. destruct (pval false _); [discriminate|reflexivity].
    + intros f var d I cb info Rq Ed. destruct pr as [|x pr]; [discriminate|]. apply some_inj in Ed. subst d.
      rewrite run_switch. destruct (code_request f var cb info I Rq) as [_ ->]. rewrite Gp.
      destruct (pval true _); reflexivity.
    + intros Ed. split; [|reflexivity]. intros k. destruct pr as [|x pr]; [|discriminate]. specialize (Gp k). cbn in Gp.
      destruct (pval true _); [discriminate|reflexivity].
Qed.

(** A property's stored object and the user's wishes. *)
Lemma prop_value : forall f m hist n p c, tracks f m hist -> property_of f n p c ->
  pval false (dict_get Z.eqb (m_props m) p) = fst (wanted_prop c n hist)
  /\ pval true (dict_get Z.eqb (m_props m) p) = (match c with CDual => snd (wanted_prop c n hist) | _ => None end).
Proof.
  intros f m hist n p c T H. pose proof (proj2 (prop_descriptor_spec f n p c) H) as Hd.
  pose proof (t_pvalue _ _ _ T _ _ _ Hd) as V. destruct (ptable_facts f) as (_ & _ & K). destruct (K _ _ _ H) as [_ Kc].
  destruct (dict_get Z.eqb (m_props m) p) as [o|] eqn:E.
  - destruct (t_pknown _ _ _ T _ _ E) as (n' & Hn'). destruct (prop_descriptor_uniq _ _ _ _ _ _ Hd Hn') as [<- Ec].
    cbn [values] in V. rewrite <- V. unfold pval. rewrite <- Ec. destruct Kc as [-> | ->]; split; reflexivity.
  - cbn [values] in V. rewrite <- V. cbn. split; [reflexivity|]. destruct c; reflexivity.
Qed.
Lemma prop_none : forall f m hist p, tracks f m hist ->
  (forall n c, property_of f n p c -> fst (wanted_prop c n hist) = None) -> pval false (dict_get Z.eqb (m_props m) p) = None.
Proof.
  intros f m hist p T H. destruct (dict_get Z.eqb (m_props m) p) as [o|] eqn:E; [|reflexivity].
  destruct (t_pknown _ _ _ T _ _ E) as (n & Hn). apply prop_descriptor_spec in Hn.
  pose proof (prop_value f m hist n p _ T Hn) as [V _]. rewrite E in V. rewrite V. exact (H _ _ Hn).
Qed.
Lemma prop_none_purchase : forall f m hist p, tracks f m hist ->
  (forall n c, property_of f n p c -> snd (wanted_prop c n hist) = None) -> pval true (dict_get Z.eqb (m_props m) p) = None.
Proof.
  intros f m hist p T H. destruct (dict_get Z.eqb (m_props m) p) as [o|] eqn:E; [|reflexivity].
  destruct (t_pknown _ _ _ T _ _ E) as (n & Hn). apply prop_descriptor_spec in Hn.
  pose proof (prop_value f m hist n p _ T Hn) as [_ V]. rewrite E in V. rewrite V.
  specialize (H _ _ Hn). destruct (c_class o); try reflexivity. exact H.
Qed.
Lemma props_classes : forall f m hist, tracks f m hist ->
  Forall (fun kc => c_class (snd kc) = CDual \/ c_class (snd kc) = CDefault) (m_props m).
Proof.
  intros f m hist T. apply Forall_forall. intros [k o] I. cbn [snd].
  assert (E : dict_get Z.eqb (m_props m) k = Some o).
  { pose proof (t_pnodup _ _ _ T) as N. clear T. induction (m_props m) as [|[k0 a] l IH]; [destruct I|].
    cbn in N. apply NoDup_cons_iff in N as [N1 N2]. cbn [dict_get]. destruct I as [I|I].
    - injection I as -> ->. rewrite Z.eqb_refl. reflexivity.
    - destruct (Z.eqb_spec k k0) as [->|]; [|exact (IH I N2)]. exfalso. apply N1. apply (in_map fst l (k0, o)) in I. exact I. }
  destruct (t_pknown _ _ _ T _ _ E) as (n & Hn). apply prop_descriptor_spec in Hn.
  destruct (ptable_facts f) as (_ & _ & K). exact (proj2 (K _ _ _ Hn)).
Qed.

(** A callback's stored object and the user's wishes. *)
Lemma cb_value : forall f m hist n k c, tracks f m hist -> callback_of f n k c -> (~ In f [16; 18; 19] \/ k <> 0) ->
  values (dict_get Z.eqb (m_callbacks m) k) = wanted c n hist.
Proof.
  intros f m hist n k c T H Hk. apply callback_descriptor in H.
  exact (t_value _ _ _ T _ _ _ (own_nonzero _ _ _ _ H Hk) H).
Qed.
Lemma cb_none : forall f m hist k (sel : setting -> option vobj), sel (None, None) = None -> tracks f m hist -> k <> 0 ->
  (forall n c, callback_of f n k c -> sel (wanted c n hist) = None) -> sel (values (dict_get Z.eqb (m_callbacks m) k)) = None.
Proof.
  intros f m hist k sel S0 T Hk H. destruct (dict_get Z.eqb (m_callbacks m) k) as [o|] eqn:E; [|exact S0].
  destruct (t_known _ _ _ T _ _ E) as (n & Hn). pose proof Hn as Hn'. apply descriptor_spec in Hn' as [Hc|(_ & Q & _)]; [|contradiction].
  rewrite <- E. rewrite (cb_value f m hist n k _ T Hc (or_intror Hk)). exact (H _ _ Hc).
Qed.
Lemma graphics_value : forall f m hist, tracks f m hist -> ~ In f [16; 18; 19] ->
  values (dict_get Z.eqb (m_callbacks m) 0) = wanted CGraphics "graphics" hist.
Proof.
  intros f m hist T H. exact (t_value _ _ _ T _ _ _ (graphics_own f H) (graphics_descriptor f)).
Qed.
