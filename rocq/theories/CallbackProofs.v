From Coq Require Import ZArith List Bool String Lia.
From Verif Require Import Base BaseFacts RecordsModel ContainerProofs VA2Model VA2Vars CallbackModel SpecCallback.
Import ListNotations.
Open Scope string_scope.
Open Scope list_scope.
Open Scope Z_scope.

(** ---- tables ---- *)
Fixpoint nodupb {A} (eqb : A -> A -> bool) (l : list A) : bool :=
  match l with [] => true | x :: r => negb (existsb (eqb x) r) && nodupb eqb r end.
Lemma nodupb_ok : forall A (eqb : A -> A -> bool), (forall x y, eqb x y = true <-> x = y) ->
  forall l, nodupb eqb l = true -> NoDup l.
Proof.
  intros A eqb He. induction l as [|x l IH]; intros H; [constructor|].
  cbn in H. apply andb_true_iff in H as [H1 H2]. constructor; [|exact (IH H2)].
  intros I. apply negb_true_iff in H1. assert (existsb (eqb x) l = true); [|congruence].
  apply existsb_exists. exists x. split; [exact I|]. apply He. reflexivity.
Qed.

Definition table_ok (f : Z) (l : list (Z * cbdata)) : bool :=
  nodupb Z.eqb (map fst l) && nodupb String.eqb (map (fun kd => cd_name (snd kd)) l)
  && negb (existsb (fun kd => String.eqb (cd_name (snd kd)) "graphics") l)
  && (existsb (Z.eqb f) [16; 18; 19] || negb (existsb (fun kd => fst kd =? 0) l))
  && forallb (fun kd => (0 <=? fst kd) && (fst kd <? 65536) && (0 <=? cd_flag (snd kd)) && (cd_flag (snd kd) <? 65536)
       && negb (cbclass_eqb (cd_class (snd kd)) CGraphics)) l.
Lemma tables_ok : forallb (fun fl => table_ok (fst fl) (snd fl)) CALLBACKS = true.
Proof. vm_compute. reflexivity. Qed.
Lemma table_ok_at : forall f, table_ok f (table CALLBACKS f) = true.
Proof.
  intros f. unfold table. destruct (dict_get Z.eqb CALLBACKS f) as [l|] eqn:E.
  - apply dget_In in E. pose proof tables_ok as T. rewrite forallb_forall in T. exact (T _ E).
  - unfold table_ok. cbn. rewrite orb_true_r. reflexivity.
Qed.
Definition ptable_ok (l : list (Z * (string * cbclass))) : bool :=
  nodupb Z.eqb (map fst l) && nodupb String.eqb (map (fun kd => fst (snd kd)) l)
  && forallb (fun kd => (0 <=? fst kd) && (fst kd <? 256)
       && (cbclass_eqb (snd (snd kd)) CDual || cbclass_eqb (snd (snd kd)) CDefault)) l.
Lemma ptables_ok : forallb (fun fl => ptable_ok (snd fl)) PROPERTIES = true.
Proof. vm_compute. reflexivity. Qed.
Lemma ptable_ok_at : forall f, ptable_ok (table PROPERTIES f) = true.
Proof.
  intros f. unfold table. destruct (dict_get Z.eqb PROPERTIES f) as [l|] eqn:E.
  - apply dget_In in E. pose proof ptables_ok as T. rewrite forallb_forall in T. exact (T _ E).
  - reflexivity.
Qed.

Section Find.
  Context {A : Type} (nm : A -> string).
  Lemma find_name_in : forall n l k d, find_name nm n l = Some (k, d) -> In (k, d) l /\ nm d = n.
  Proof.
    induction l as [|[k0 d0] l IH]; intros k d H; [discriminate|]. cbn in H.
    destruct (find_name nm n l) as [[k1 d1]|] eqn:E.
    - injection H as -> ->. destruct (IH _ _ eq_refl). split; [right; assumption|assumption].
    - destruct (String.eqb_spec (nm d0) n); [|discriminate]. injection H as -> ->. split; [left; reflexivity|assumption].
  Qed.
  Lemma find_name_complete : forall l k d, NoDup (map (fun kd => nm (snd kd)) l) -> In (k, d) l ->
    find_name nm (nm d) l = Some (k, d).
  Proof.
    induction l as [|[k0 d0] l IH]; intros k d N I; [destruct I|]. cbn in N. apply NoDup_cons_iff in N as [N1 N2].
    cbn. destruct I as [I|I].
    - injection I as -> ->. destruct (find_name nm (nm d) l) as [[k1 d1]|] eqn:E.
      + exfalso. apply N1. apply find_name_in in E as [E1 E2]. rewrite <- E2.
        apply (in_map (fun kd => nm (snd kd)) l (k1, d1)) in E1. exact E1.
      + rewrite String.eqb_refl. reflexivity.
    - rewrite (IH _ _ N2 I). reflexivity.
  Qed.
End Find.

Lemma nodup_key : forall A (l : list (Z * A)) k x y, NoDup (map fst l) -> In (k, x) l -> In (k, y) l -> x = y.
Proof.
  induction l as [|[k0 a] l IH]; intros k x y N I J; [destruct I|]. cbn in N. apply NoDup_cons_iff in N as [N1 N2].
  destruct I as [I|I], J as [J|J].
  - congruence.
  - injection I as -> ->. exfalso. apply N1. apply (in_map fst l (k, y)) in J. exact J.
  - injection J as -> ->. exfalso. apply N1. apply (in_map fst l (k, x)) in I. exact I.
  - exact (IH _ _ _ N2 I J).
Qed.

Lemma table_facts : forall f, NoDup (map fst (table CALLBACKS f))
  /\ NoDup (map (fun kd => cd_name (snd kd)) (table CALLBACKS f))
  /\ (forall k d, In (k, d) (table CALLBACKS f) -> cd_name d <> "graphics")
  /\ (In f [16; 18; 19] \/ forall k d, In (k, d) (table CALLBACKS f) -> k <> 0)
  /\ (forall k d, In (k, d) (table CALLBACKS f) -> 0 <= k < 65536 /\ 0 <= cd_flag d < 65536 /\ cd_class d <> CGraphics).
Proof.
  intros f. pose proof (table_ok_at f) as T. unfold table_ok in T.
  apply andb_true_iff in T as [T T5]. apply andb_true_iff in T as [T T4]. apply andb_true_iff in T as [T T3].
  apply andb_true_iff in T as [T1 T2].
  split; [exact (nodupb_ok _ _ Z.eqb_eq _ T1)|]. split; [exact (nodupb_ok _ _ String.eqb_eq _ T2)|].
  split; [|split].
  - intros k d I E. apply negb_true_iff in T3.
    assert (existsb (fun kd => String.eqb (cd_name (snd kd)) "graphics") (table CALLBACKS f) = true); [|congruence].
    apply existsb_exists. exists (k, d). split; [exact I|]. cbn. rewrite E. reflexivity.
  - apply orb_true_iff in T4 as [T4|T4].
    + left. apply existsb_exists in T4 as (x & I & E). apply Z.eqb_eq in E. subst. exact I.
    + right. intros k d I ->. apply negb_true_iff in T4.
      assert (existsb (fun kd => fst kd =? 0) (table CALLBACKS f) = true); [|congruence].
      apply existsb_exists. exists (0, d). split; [exact I|reflexivity].
  - intros k d I. rewrite forallb_forall in T5. specialize (T5 _ I). cbn [fst snd] in T5.
    apply andb_true_iff in T5 as [T5 E]. split; [lia|]. split; [lia|]. intros Q. rewrite Q in E. discriminate.
Qed.
Lemma ptable_facts : forall f, NoDup (map fst (table PROPERTIES f))
  /\ NoDup (map (fun kd => fst (snd kd)) (table PROPERTIES f))
  /\ (forall k n c, In (k, (n, c)) (table PROPERTIES f) -> 0 <= k < 256 /\ (c = CDual \/ c = CDefault)).
Proof.
  intros f. pose proof (ptable_ok_at f) as T. unfold ptable_ok in T.
  apply andb_true_iff in T as [T T5]. apply andb_true_iff in T as [T1 T2].
  split; [exact (nodupb_ok _ _ Z.eqb_eq _ T1)|]. split; [exact (nodupb_ok _ _ String.eqb_eq _ T2)|].
  intros k n c I. rewrite forallb_forall in T5. specialize (T5 _ I). cbn [fst snd] in T5.
  apply andb_true_iff in T5 as [T5 E]. split; [lia|]. destruct c; try discriminate; auto.
Qed.

(** A named descriptor and its table entry. *)
Lemma descriptor_spec : forall f n k c, descriptor f n = Some (k, c) <->
  callback_of f n k c \/ (n = "graphics" /\ k = 0 /\ c = CGraphics).
Proof.
  intros f n k c. destruct (table_facts f) as (_ & N & G & _ & _). unfold descriptor, callback_of. split.
  - destruct (find_name cd_name n (table CALLBACKS f)) as [[k1 d]|] eqn:E.
    + intros H. injection H as <- <-. apply find_name_in in E as [I <-]. left. exists (cd_flag d). destruct d; exact I.
    + destruct (String.eqb_spec n "graphics"); [|discriminate]. intros H. injection H as <- <-. right. auto.
  - intros [(fl & I)|(-> & -> & ->)].
    + pose proof (find_name_complete cd_name _ _ _ N I) as E. cbn [cd_name] in E. rewrite E. reflexivity.
    + destruct (find_name cd_name "graphics" (table CALLBACKS f)) as [[k1 d]|] eqn:E; [|reflexivity].
      apply find_name_in in E as [I E]. exfalso. exact (G _ _ I E).
Qed.
Lemma prop_descriptor_spec : forall f n k c, prop_descriptor f n = Some (k, c) <-> property_of f n k c.
Proof.
  intros f n k c. destruct (ptable_facts f) as (_ & N & _). unfold prop_descriptor, property_of. split.
  - destruct (find_name fst n (table PROPERTIES f)) as [[k1 [n1 c1]]|] eqn:E; [|discriminate].
    cbn [snd]. intros H. injection H as <- <-. apply find_name_in in E as [I E]. cbn in E. subst. exact I.
  - intros I. pose proof (find_name_complete fst _ _ _ N I) as E. cbn [fst] in E. rewrite E. reflexivity.
Qed.

(** Different names have different numbers. *)
Lemma descriptor_uniq : forall f n m k c c', (~ In f [16; 18; 19] \/ k <> 0) ->
  descriptor f n = Some (k, c) -> descriptor f m = Some (k, c') -> n = m /\ c = c'.
Proof.
  intros f n m k c c' Hf Hn Hm. apply descriptor_spec in Hn, Hm.
  destruct (table_facts f) as (N & _ & _ & Zt & _).
  destruct Hn as [(x & I)|(Q1 & Q2 & Q3)], Hm as [(y & J)|(R1 & R2 & R3)]; subst.
  - pose proof (nodup_key _ _ _ _ _ N I J) as E. injection E as -> _ ->. auto.
  - destruct Hf as [Hf|Hf]; [|contradiction]. destruct Zt as [Zt|Zt]; [contradiction|]. exfalso. exact (Zt _ _ I eq_refl).
  - destruct Hf as [Hf|Hf]; [|contradiction]. destruct Zt as [Zt|Zt]; [contradiction|]. exfalso. exact (Zt _ _ J eq_refl).
  - auto.
Qed.
Lemma prop_descriptor_uniq : forall f n m k c c',
  prop_descriptor f n = Some (k, c) -> prop_descriptor f m = Some (k, c') -> n = m /\ c = c'.
Proof.
  intros f n m k c c' Hn Hm. apply prop_descriptor_spec in Hn, Hm.
  destruct (ptable_facts f) as (N & _ & _). pose proof (nodup_key _ _ _ _ _ N Hn Hm) as E. injection E as -> ->. auto.
Qed.

(** ---- the manager remembers the last word ---- *)
Definition values (o : option cbobj) : setting :=
  match o with Some c => (c_default c, c_purchase c) | None => (None, None) end.

(** Names whose number no other attribute of the feature shares. *)
Definition own (f : Z) (n : string) : Prop := forall m k c c',
  descriptor f n = Some (k, c) -> descriptor f m = Some (k, c') -> m = n.

Record tracks (f : Z) (m : manager) (hist : list event) : Prop := mk_tracks {
  t_nodup : NoDup (map fst (m_callbacks m));
  t_pnodup : NoDup (map fst (m_props m));
  t_known : forall k o, dict_get Z.eqb (m_callbacks m) k = Some o -> exists n, descriptor f n = Some (k, c_class o);
  t_pknown : forall k o, dict_get Z.eqb (m_props m) k = Some o -> exists n, prop_descriptor f n = Some (k, c_class o);
  t_value : forall n k c, own f n -> descriptor f n = Some (k, c) ->
    values (dict_get Z.eqb (m_callbacks m) k) = wanted c n hist;
  t_pvalue : forall n k c, prop_descriptor f n = Some (k, c) ->
    values (dict_get Z.eqb (m_props m) k) = wanted_prop c n hist;
  t_novehicle : is_vehicle_feature f = false -> m_props m = [] }.

Lemma tracks_empty : forall f, tracks f (mk_manager [] []) [].
Proof. intros f. constructor; cbn; try constructor; try discriminate; reflexivity. Qed.

Lemma dset_get : forall (l : list (Z * cbobj)) k v x,
  dict_get Z.eqb (dict_set Z.eqb l k v) x = if x =? k then Some v else dict_get Z.eqb l x.
Proof. intros. apply dget_set. Qed.

Lemma descr_set_spec : forall d a cbs cbs', descr_set d a cbs = Some cbs' ->
  exists o, c_class o = snd d /\ cbs' = dict_set Z.eqb cbs (fst d) o /\ values (Some o) = meaning (snd d) a.
Proof.
  intros [k c] a cbs cbs' H. unfold descr_set in H. destruct a as [v|o]; cbn [fst snd] in *.
  - apply some_inj in H. subst cbs'. exists (cls_new c v). split; [destruct c; reflexivity|]. split; [reflexivity|].
    destruct c; cbn; try reflexivity.
  - destruct (cbclass_eqb (c_class o) c) eqn:E; [|discriminate]. apply some_inj in H. subst cbs'. exists o.
    split; [destruct (c_class o), c; try discriminate; reflexivity|]. split; reflexivity.
Qed.

Lemma descr_get_spec : forall d cbs o cbs', descr_get d cbs = (o, cbs') ->
  (dict_get Z.eqb cbs (fst d) = Some o /\ cbs' = cbs)
  \/ (dict_get Z.eqb cbs (fst d) = None /\ o = mk_cb (snd d) None None /\ cbs' = dict_set Z.eqb cbs (fst d) o).
Proof.
  intros [k c] cbs o cbs' H. unfold descr_get in H. cbn [fst snd] in *.
  destruct (dict_get Z.eqb cbs k) as [x|] eqn:E.
  - injection H as -> <-. left. split; [reflexivity|reflexivity].
  - injection H as <- <-. right. split; [reflexivity|]. split; [destruct c; reflexivity|reflexivity].
Qed.

Lemma wanted_step : forall f m k c n a, descriptor f m = Some (k, c) -> forall hist c' k',
  own f n -> descriptor f n = Some (k', c') ->
  wanted c' n (EAssign m a :: hist) = if k' =? k then meaning c a else wanted c' n hist.
Proof.
  intros f m k c n a Hm hist c' k' On Hn. cbn [wanted]. destruct (String.eqb_spec m n) as [->|N].
  - rewrite Hm in Hn. injection Hn as <- <-. rewrite Z.eqb_refl. reflexivity.
  - destruct (Z.eqb_spec k' k); [|reflexivity]. subst. exfalso. apply N. symmetry in Hm. exact (On m k c' c Hn (eq_sym Hm)).
Qed.

Lemma tracks_event : forall f m hist e m', tracks f m hist -> apply_event f m e = Some m' -> tracks f m' (e :: hist).
Proof.
  intros f m hist e m' [T1 T2 T3 T4 T5 T6 T7] H. destruct e as [n a|n p v|n a|n p v]; cbn [apply_event] in H.
  - apply bind_some in H as ([k c] & Hd & H). apply bind_some in H as (cbs & Hs & H). apply some_inj in H. subst m'.
    destruct (descr_set_spec _ _ _ _ Hs) as (o & Co & -> & Vo). cbn [fst snd] in *.
    constructor; cbn [m_callbacks m_props]; try assumption.
    + apply dset_nodup. exact T1.
    + intros k' o' E. rewrite dset_get in E. destruct (Z.eqb_spec k' k).
      * apply some_inj in E. subst. exists n. exact Hd.
      * exact (T3 _ _ E).
    + intros n' k' c' On Hn. rewrite (wanted_step f n k c n' a Hd hist c' k' On Hn). rewrite dset_get.
      destruct (k' =? k); [exact Vo|exact (T5 _ _ _ On Hn)].
  - apply bind_some in H as ([k c] & Hd & H). destruct (descr_get (k, c) (m_callbacks m)) as [o cbs] eqn:Hg.
    apply some_inj in H. subst m'. cbn [fst snd] in *.
    assert (G : NoDup (map fst cbs) /\ dict_get Z.eqb (m_callbacks m) k = None \/ cbs = m_callbacks m).
    { apply descr_get_spec in Hg as [[A B]|(A & B & C)]; cbn [fst snd] in *; [right; exact B|left].
      subst cbs. split; [apply dset_nodup; exact T1|exact A]. }
    assert (Gg : forall x, x <> k -> dict_get Z.eqb cbs x = dict_get Z.eqb (m_callbacks m) x).
    { intros x Nx. apply descr_get_spec in Hg as [[A B]|(A & B & C)]; cbn [fst snd] in *; subst cbs; [reflexivity|].
      rewrite dset_get. destruct (Z.eqb_spec x k); [contradiction|reflexivity]. }
    assert (Go : values (dict_get Z.eqb (m_callbacks m) k) = (c_default o, c_purchase o)).
    { apply descr_get_spec in Hg as [[A B]|(A & B & C)]; cbn [fst snd] in *; rewrite A; [reflexivity|]. subst o. reflexivity. }
    assert (Nd : NoDup (map fst cbs)) by (destruct G as [[G _]|G]; [exact G|subst cbs; exact T1]).
    assert (Gc : exists n', descriptor f n' = Some (k, c_class o)).
    { apply descr_get_spec in Hg as [[A B]|(A & B & C)]; cbn [fst snd] in *; [exact (T3 _ _ A)|]. subst o. exists n. exact Hd. }
    constructor; cbn [m_callbacks m_props]; try assumption.
    + apply dset_nodup. exact Nd.
    + intros k' o' E. rewrite dset_get in E. destruct (Z.eqb_spec k' k).
      * apply some_inj in E. subst. destruct Gc as (n' & Gc). exists n'. rewrite Gc. destruct p; reflexivity.
      * rewrite Gg in E by assumption. exact (T3 _ _ E).
    + intros n' k' c' On Hn. cbn [wanted]. rewrite dset_get. destruct (String.eqb_spec n n') as [<-|N].
      * rewrite Hd in Hn. injection Hn as <- <-. rewrite Z.eqb_refl.
        pose proof (T5 _ _ _ On Hd) as V. rewrite Go in V. rewrite <- V. destruct p; reflexivity.
      * destruct (Z.eqb_spec k' k) as [->|Nk]; [exfalso; apply N; exact (On n k c' c Hn Hd)|].
        rewrite Gg by exact Nk. exact (T5 _ _ _ On Hn).
  - destruct (is_vehicle_feature f) eqn:Hv; [|discriminate]. cbn [negb] in H.
    destruct (prop_descriptor f n) as [[k c]|] eqn:Hd.
    + apply bind_some in H as (ps & Hs & H). apply some_inj in H. subst m'.
      destruct (descr_set_spec _ _ _ _ Hs) as (o & Co & -> & Vo). cbn [fst snd] in *.
      constructor; cbn [m_callbacks m_props]; try assumption.
      * apply dset_nodup. exact T2.
      * intros k' o' E. rewrite dset_get in E. destruct (Z.eqb_spec k' k).
        -- apply some_inj in E. subst. exists n. exact Hd.
        -- exact (T4 _ _ E).
      * intros n' k' c' Hn. cbn [wanted_prop]. rewrite dset_get. destruct (String.eqb_spec n n') as [<-|N].
        -- rewrite Hd in Hn. injection Hn as <- <-. rewrite Z.eqb_refl. exact Vo.
        -- destruct (Z.eqb_spec k' k) as [->|Nk]; [exfalso; apply N; exact (proj1 (prop_descriptor_uniq _ _ _ _ _ _ Hd Hn))|].
           exact (T6 _ _ _ Hn).
      * intros Q. rewrite Q in Hv. discriminate.
    + apply some_inj in H. subst m'. constructor; try assumption.
      * intros n' k' c' Hn. cbn [wanted_prop]. destruct (String.eqb_spec n n') as [<-|N]; [congruence|]. exact (T6 _ _ _ Hn).
      * intros Q. rewrite Q in Hv. discriminate.
  - destruct (is_vehicle_feature f) eqn:Hv; [|discriminate]. cbn [negb] in H.
    apply bind_some in H as ([k c] & Hd & H). destruct (descr_get (k, c) (m_props m)) as [o ps] eqn:Hg.
    apply some_inj in H. subst m'. cbn [fst snd] in *.
    assert (Nd : NoDup (map fst ps)).
    { apply descr_get_spec in Hg as [[A B]|(A & B & C)]; cbn [fst snd] in *; subst ps; [exact T2|apply dset_nodup; exact T2]. }
    assert (Gg : forall x, x <> k -> dict_get Z.eqb ps x = dict_get Z.eqb (m_props m) x).
    { intros x Nx. apply descr_get_spec in Hg as [[A B]|(A & B & C)]; cbn [fst snd] in *; subst ps; [reflexivity|].
      rewrite dset_get. destruct (Z.eqb_spec x k); [contradiction|reflexivity]. }
    assert (Go : values (dict_get Z.eqb (m_props m) k) = (c_default o, c_purchase o)).
    { apply descr_get_spec in Hg as [[A B]|(A & B & C)]; cbn [fst snd] in *; rewrite A; [reflexivity|]. subst o. reflexivity. }
    assert (Gc : exists n', prop_descriptor f n' = Some (k, c_class o)).
    { apply descr_get_spec in Hg as [[A B]|(A & B & C)]; cbn [fst snd] in *; [exact (T4 _ _ A)|]. subst o. exists n. exact Hd. }
    constructor; cbn [m_callbacks m_props]; try assumption.
    + apply dset_nodup. exact Nd.
    + intros k' o' E. rewrite dset_get in E. destruct (Z.eqb_spec k' k).
      * apply some_inj in E. subst. destruct Gc as (n' & Gc). exists n'. rewrite Gc. destruct p; reflexivity.
      * rewrite Gg in E by assumption. exact (T4 _ _ E).
    + intros n' k' c' Hn. cbn [wanted_prop]. rewrite dset_get. destruct (String.eqb_spec n n') as [<-|N].
      * rewrite Hd in Hn. injection Hn as <- <-. rewrite Z.eqb_refl.
        pose proof (T6 _ _ _ Hd) as V. rewrite Go in V. rewrite <- V. destruct p; reflexivity.
      * destruct (Z.eqb_spec k' k) as [->|Nk]; [exfalso; apply N; exact (proj1 (prop_descriptor_uniq _ _ _ _ _ _ Hd Hn))|].
        rewrite Gg by exact Nk. exact (T6 _ _ _ Hn).
    + intros Q. rewrite Q in Hv. discriminate.
Qed.

Lemma tracks_events : forall f evs m hist m', tracks f m hist -> apply_events f m evs = Some m' -> tracks f m' (rev evs ++ hist).
Proof.
  induction evs as [|e evs IH]; intros m hist m' T H.
  - apply some_inj in H. subst. exact T.
  - cbn [apply_events] in H. apply bind_some in H as (m1 & H1 & H). cbn [rev]. rewrite <- app_assoc. cbn [app].
    apply (IH m1 (e :: hist) m'); [|exact H]. exact (tracks_event _ _ _ _ _ T H1).
Qed.

(** ---- dictionaries of targets ---- *)
Lemma tset_get : forall (l : list (Z * target)) k v x,
  dict_get Z.eqb (dict_set Z.eqb l k v) x = if x =? k then Some v else dict_get Z.eqb l x.
Proof. intros. apply dget_set. Qed.
Lemma dget_notin : forall A (l : list (Z * A)) k, ~ In k (map fst l) -> dict_get Z.eqb l k = None.
Proof.
  induction l as [|[k0 a] l IH]; intros k N; [reflexivity|]. cbn in *. destruct (Z.eqb_spec k k0); [subst; tauto|].
  apply IH. tauto.
Qed.
Definition user (o : option vobj) (d : option target) : option target :=
  match o with Some v => Some (TUser v) | None => d end.

Lemma collect_spec : forall l dc pc, NoDup (map fst l) -> forall k,
  dict_get Z.eqb (fst (collect l dc pc)) k
    = (if k =? 0 then dict_get Z.eqb dc k else user (fst (values (dict_get Z.eqb l k))) (dict_get Z.eqb dc k))
  /\ dict_get Z.eqb (snd (collect l dc pc)) k
    = (if k =? 0 then dict_get Z.eqb pc k else user (snd (values (dict_get Z.eqb l k))) (dict_get Z.eqb pc k)).
Proof.
  induction l as [|[k0 c] l IH]; intros dc pc N k.
  - cbn. destruct (k =? 0); split; reflexivity.
  - cbn in N. apply NoDup_cons_iff in N as [N1 N2]. cbn [collect]. destruct (Z.eqb_spec k0 0) as [->|Nz].
    + destruct (IH dc pc N2 k) as [E1 E2]. rewrite E1, E2. cbn [dict_get]. destruct (Z.eqb_spec k 0); [split; reflexivity|].
      split; reflexivity.
    + match goal with |- context [collect l ?a ?b] => destruct (IH a b N2 k) as [E1 E2]; rewrite E1, E2; clear E1 E2 end.
      cbn [dict_get]. destruct (Z.eqb_spec k 0) as [->|Nk].
      * split.
        -- destruct (c_default c); [|reflexivity]. rewrite tset_get. destruct (Z.eqb_spec 0 k0); [congruence|reflexivity].
        -- destruct (c_purchase c); [|reflexivity]. rewrite tset_get. destruct (Z.eqb_spec 0 k0); [congruence|reflexivity].
      * destruct (Z.eqb_spec k k0) as [->|Nk0].
        -- rewrite (dget_notin _ l k0 N1). cbn [values fst snd user].
           split; [destruct (c_default c)|destruct (c_purchase c)]; cbn [user]; try reflexivity;
             rewrite tset_get, Z.eqb_refl; reflexivity.
        -- split; [destruct (c_default c)|destruct (c_purchase c)]; try reflexivity; rewrite tset_get;
             destruct (Z.eqb_spec k k0); try contradiction; reflexivity.
Qed.

Lemma update_get : forall (e d : list (Z * target)) k, NoDup (map fst e) ->
  dict_get Z.eqb (dict_update d e) k = match dict_get Z.eqb e k with Some t => Some t | None => dict_get Z.eqb d k end.
Proof.
  unfold dict_update. induction e as [|[k0 t] e IH]; intros d k N; [reflexivity|].
  cbn in N. apply NoDup_cons_iff in N as [N1 N2]. cbn [fold_left dict_get fst snd]. rewrite (IH _ _ N2).
  destruct (Z.eqb_spec k k0) as [->|Nk].
  - rewrite (dget_notin _ e k0 N1). rewrite tset_get, Z.eqb_refl. reflexivity.
  - rewrite tset_get. destruct (Z.eqb_spec k k0); [contradiction|reflexivity].
Qed.

(** Do two settings name the same thing, as far as numbers tell? *)
Definition agree (c : cbobj) : bool :=
  match c_class c with
  | CDual => negb (is_set c) || match c_default c, c_purchase c with
                                | Some d, Some p => opt_eqb (v_ref d) (v_ref p) | _, _ => false end
  | _ => true
  end.
Definition pval (which : bool) (o : option cbobj) : option vobj :=
  match o with
  | None => None
  | Some c => match c_class c with
              | CDual => if which then c_purchase c else c_default c
              | CDefault => if which then None else c_default c
              | CPurchase => if which then c_purchase c else None
              | CGraphics => None
              end
  end.
Lemma tset_nodup : forall (l : list (Z * target)) k v, NoDup (map fst l) -> NoDup (map fst (dict_set Z.eqb l k v)).
Proof. intros. apply dset_nodup. assumption. Qed.

Lemma prop_ranges_spec : forall l dr pr same, NoDup (map fst l) -> NoDup (map fst dr) -> NoDup (map fst pr) ->
  Forall (fun kc => c_class (snd kc) <> CGraphics) l ->
  exists dr' pr', prop_ranges l dr pr same = Some (dr', pr', same && forallb (fun kc => agree (snd kc)) l)
  /\ NoDup (map fst dr') /\ NoDup (map fst pr')
  /\ forall k, dict_get Z.eqb dr' k = user (pval false (dict_get Z.eqb l k)) (dict_get Z.eqb dr k)
             /\ dict_get Z.eqb pr' k = user (pval true (dict_get Z.eqb l k)) (dict_get Z.eqb pr k).
Proof.
  induction l as [|[k0 c] l IH]; intros dr pr same N Nd Np F.
  - exists dr, pr. cbn. rewrite andb_true_r. split; [reflexivity|]. split; [exact Nd|]. split; [exact Np|].
    intros k. split; reflexivity.
  - cbn in N. apply NoDup_cons_iff in N as [N1 N2]. apply Forall_cons_iff in F as [F1 F2]. cbn [snd] in F1.
    assert (Step : forall dr1 pr1 s1, NoDup (map fst dr1) -> NoDup (map fst pr1) ->
      s1 = same && agree c ->
      (forall k, dict_get Z.eqb dr1 k = if k =? k0 then user (pval false (Some c)) (dict_get Z.eqb dr k) else dict_get Z.eqb dr k) ->
      (forall k, dict_get Z.eqb pr1 k = if k =? k0 then user (pval true (Some c)) (dict_get Z.eqb pr k) else dict_get Z.eqb pr k) ->
      prop_ranges ((k0, c) :: l) dr pr same = prop_ranges l dr1 pr1 s1 ->
      exists dr' pr', prop_ranges ((k0, c) :: l) dr pr same = Some (dr', pr', same && forallb (fun kc => agree (snd kc)) ((k0, c) :: l))
        /\ NoDup (map fst dr') /\ NoDup (map fst pr')
        /\ forall k, dict_get Z.eqb dr' k = user (pval false (dict_get Z.eqb ((k0, c) :: l) k)) (dict_get Z.eqb dr k)
             /\ dict_get Z.eqb pr' k = user (pval true (dict_get Z.eqb ((k0, c) :: l) k)) (dict_get Z.eqb pr k)).
    { intros dr1 pr1 s1 Nd1 Np1 Es Ed Ep E. destruct (IH dr1 pr1 s1 N2 Nd1 Np1 F2) as (dr' & pr' & R & A & B & G).
      exists dr', pr'. split.
      - rewrite E, R. rewrite Es. cbn [forallb snd]. rewrite andb_assoc. reflexivity.
      - split; [exact A|]. split; [exact B|]. intros k. destruct (G k) as [G1 G2]. rewrite G1, G2, Ed, Ep.
        cbn [dict_get]. destruct (Z.eqb_spec k k0) as [->|Nk]; [|split; reflexivity].
        rewrite (dget_notin _ l k0 N1). split; reflexivity. }
    assert (Set1 : forall (d : list (Z * target)) o k, dict_get Z.eqb (match o with Some v => dict_set Z.eqb d k0 (TUser v) | None => d end) k
       = if k =? k0 then user o (dict_get Z.eqb d k) else dict_get Z.eqb d k).
    { intros d o k. destruct o as [v|]; [rewrite tset_get; reflexivity|]. destruct (k =? k0); reflexivity. }
    destruct (is_set c) eqn:Es.
    + assert (U : prop_ranges ((k0, c) :: l) dr pr same =
        match c_class c with
        | CDual => prop_ranges l (match c_default c with Some v => dict_set Z.eqb dr k0 (TUser v) | None => dr end)
                     (match c_purchase c with Some v => dict_set Z.eqb pr k0 (TUser v) | None => pr end)
                     (match c_default c, c_purchase c with Some d, Some p => if opt_eqb (v_ref d) (v_ref p) then same else false | _, _ => false end)
        | CPurchase => match c_purchase c with Some v => prop_ranges l dr (dict_set Z.eqb pr k0 (TUser v)) same | None => None end
        | CDefault => match c_default c with Some v => prop_ranges l (dict_set Z.eqb dr k0 (TUser v)) pr same | None => None end
        | CGraphics => None
        end) by (cbn [prop_ranges]; rewrite Es; reflexivity).
      destruct (c_class c) eqn:Ec.
      * unfold is_set in Es. rewrite Ec in Es. destruct (c_default c) as [v|] eqn:Ed; [|discriminate].
        apply (Step (dict_set Z.eqb dr k0 (TUser v)) pr same); [apply tset_nodup; exact Nd|exact Np| | | |exact U].
        -- unfold agree. rewrite Ec, andb_true_r. reflexivity.
        -- intros k. unfold pval. rewrite Ec, Ed. apply tset_get.
        -- intros k. unfold pval. rewrite Ec. cbn [user]. destruct (k =? k0); reflexivity.
      * unfold is_set in Es. rewrite Ec in Es. destruct (c_purchase c) as [v|] eqn:Ed; [|discriminate].
        apply (Step dr (dict_set Z.eqb pr k0 (TUser v)) same); [exact Nd|apply tset_nodup; exact Np| | | |exact U].
        -- unfold agree. rewrite Ec, andb_true_r. reflexivity.
        -- intros k. unfold pval. rewrite Ec. cbn [user]. destruct (k =? k0); reflexivity.
        -- intros k. unfold pval. rewrite Ec, Ed. apply tset_get.
      * eapply Step; [| | | | |exact U].
        -- destruct (c_default c); [apply tset_nodup|]; exact Nd.
        -- destruct (c_purchase c); [apply tset_nodup|]; exact Np.
        -- unfold agree. rewrite Ec, Es. cbn [negb orb].
           destruct (c_default c) as [d|], (c_purchase c) as [p|]; rewrite ?andb_false_r; try reflexivity.
           destruct (opt_eqb (v_ref d) (v_ref p)); rewrite ?andb_true_r, ?andb_false_r; reflexivity.
        -- intros k. unfold pval. rewrite Ec. apply Set1.
        -- intros k. unfold pval. rewrite Ec. apply Set1.
      * contradiction F1. reflexivity.
    + apply (Step dr pr same); [exact Nd|exact Np| | | |].
      * unfold agree. rewrite Es. destruct (c_class c); rewrite andb_true_r; reflexivity.
      * intros k. destruct (k =? k0); [|reflexivity]. unfold is_set in Es. unfold pval.
        destruct (c_class c), (c_default c); try discriminate; reflexivity.
      * intros k. destruct (k =? k0); [|reflexivity]. unfold is_set in Es. unfold pval.
        destruct (c_class c), (c_purchase c); try discriminate; try reflexivity; destruct (c_default c); discriminate.
      * cbn [prop_ranges]. rewrite Es. reflexivity.
Qed.

(** ---- running switches ---- *)
Lemma run_switch : forall f var code r d, run f var (TSwitch code r d) =
  match code_value f var code with
  | None => None
  | Some x => match dict_get Z.eqb r x with Some t => run f var t | None => run f var d end
  end.
Proof.
  intros f var code r d. cbn [run]. destruct (code_value f var code) as [x|]; [|reflexivity].
  induction r as [|[k t] r IH]; [reflexivity|]. cbn [dict_get]. rewrite (Z.eqb_sym k x).
  destruct (x =? k); [reflexivity|exact IH].
Qed.
Definition variable_features : list Z := [0; 1; 2; 3; 4; 7; 9; 10; 15; 16; 20].
Lemma code_values : forall f var, In f variable_features ->
  code_value f var "current_callback" = Some (Z.shiftr (var 12) 0 mod 2 ^ 16)
  /\ code_value f var "extra_callback_info1_byte" = Some (Z.shiftr (var 16) 0 mod 2 ^ 8).
Proof.
  intros f var I. unfold variable_features in I. cbn [In] in I.
  repeat (destruct I as [<-|I]; [split; reflexivity|]). destruct I.
Qed.
Lemma code_request : forall f var cb info, In f variable_features -> request cb info var ->
  code_value f var "current_callback" = Some cb /\ code_value f var "extra_callback_info1_byte" = Some (info mod 256).
Proof.
  intros f var cb info I (R1 & R2 & R3 & R4). destruct (code_values f var I) as [-> ->].
  rewrite R2, R4, !Z.shiftr_0_r. rewrite (Z.mod_small cb) by exact R1. split; reflexivity.
Qed.
