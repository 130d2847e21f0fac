(** Proofs for C37. *)
From Coq Require Import ZArith List Bool String Permutation Lia.
From Verif Require Import Base BaseFacts RecordsModel IdMapProofs RecordsProofs RefsProofs2 PropModel Action0Model SpecProp PropAccept LibModel SpecLib LibProofs.
Import ListNotations.
Open Scope string_scope.
Open Scope list_scope.
Open Scope Z_scope.

(** ** Induction over items *)
Section Ind.
  Variable P : vitem -> Prop.
  Hypothesis HV : forall v, P (VVeh v).
  Hypothesis HG : forall name items, Forall P items -> P (VGroup name items).
  Fixpoint vitem_ind' (e : vitem) : P e :=
    match e with
    | VVeh v => HV v
    | VGroup name items => HG name items ((fix all l : Forall P l := match l with [] => Forall_nil P | x :: l => Forall_cons x (vitem_ind' x) (all l) end) items)
    end.
End Ind.
Lemma vehicles_group : forall name items, vehicles (VGroup name items) = listed items.
Proof.
  intros. cbn [vehicles]. unfold listed. induction items as [|x l IH]; [reflexivity|]. cbn [flat_map]. rewrite <- IH. reflexivity.
Qed.
Lemma ok_group : forall name items, vitem_ok (VGroup name items) = true ->
  Forall (fun e => vitem_ok e = true) items /\ exists x y r, items = VVeh x :: y :: r.
Proof.
  intros name items H. cbn [vitem_ok] in H. apply andb_true_iff in H as [G A]. split.
  - clear G. induction items as [|e l IH]; [apply Forall_nil|]. apply andb_true_iff in A as [A B]. apply Forall_cons; [exact A|exact (IH B)].
  - unfold group_items_ok in G. apply andb_true_iff in G as [L F]. destruct items as [|e [|y r]]; try (cbn in L; discriminate).
    destruct e as [x|n i]; [|discriminate]. exists x, y, r. reflexivity.
Qed.
Definition plist (g : option nat) (k : Z) (cb : list (Z * string)) : list vitem -> order_state -> option order_state :=
  fix go (l : list vitem) (s : order_state) : option order_state :=
    match l with [] => Some s | i :: l => do s <- process g k cb i s; go l s end.
Lemma process_group : forall group level cb name items s, process group level cb (VGroup name items) s =
  do x <- first_of (VGroup name items);
  do s <- plist (Some x) (level + 1) (match name with Some n => dict_set Z.eqb cb level n | None => cb end) items s;
  Some (match group with
        | Some g => mkOrd (o_flat s) (dict_set Nat.eqb (o_group s) x g) (o_names s)
        | None => mkOrd (o_flat s) (dict_del (o_group s) x) (o_names s)
        end).
Proof. reflexivity. Qed.

(** ** Facts about the specification *)
Lemma heads_in : forall e v, heads e v -> In v (vehicles e).
Proof. intros e v [r H]. rewrite H. left. reflexivity. Qed.
Lemma heads_fun : forall e v w, heads e v -> heads e w -> v = w.
Proof. intros e v w [r H] [r' H']. congruence. Qed.
Lemma heads_dec : forall e v, heads e v \/ ~ heads e v.
Proof.
  intros e v. unfold heads. destruct (vehicles e) as [|w r]; [right; intros [r H]; discriminate|].
  destruct (Nat.eq_dec w v) as [->|N]; [left; exists r; reflexivity|right; intros [r' H]; congruence].
Qed.
Lemma listed_in : forall items v, In v (listed items) <-> exists e, In e items /\ In v (vehicles e).
Proof. intros. apply in_flat_map. Qed.
Lemma listed_cons : forall e l, listed (e :: l) = vehicles e ++ listed l.
Proof. reflexivity. Qed.
Lemma listed_unique : forall items a b v, NoDup (listed items) -> In a items -> In b items -> In v (vehicles a) -> In v (vehicles b) -> a = b.
Proof.
  induction items as [|e l IH]; intros a b v N A B VA VB; [destruct A|]. rewrite listed_cons in N. apply nodup_app in N as (N1 & N2 & D).
  destruct A as [<-|A], B as [<-|B].
  - reflexivity.
  - exfalso. apply (D v); [apply listed_in; exists b; split; assumption|assumption].
  - exfalso. apply (D v); [apply listed_in; exists a; split; assumption|assumption].
  - exact (IH a b v N2 A B VA VB).
Qed.
Lemma listed_sub : forall items e, NoDup (listed items) -> In e items -> NoDup (vehicles e).
Proof.
  induction items as [|x l IH]; intros e N I; [destruct I|]. rewrite listed_cons in N. apply nodup_app in N as (N1 & N2 & D).
  destruct I as [<-|I]; [exact N1|exact (IH e N2 I)].
Qed.
Lemma under_in : forall e v g, shown_under e v g -> In v (vehicles e).
Proof.
  intros e v g H. induction H as [name items e v g I E _ _|name items e v g I _ IH]; rewrite vehicles_group; apply listed_in; exists e;
    split; try assumption. apply heads_in. exact E.
Qed.
Lemma under_not_head : forall e v g, vitem_ok e = true -> NoDup (vehicles e) -> shown_under e v g -> ~ heads e v.
Proof.
  intros e v g O N H. destruct H as [name items e v g I E G D|name items e v g I H].
  - intro X. apply D. exact (heads_fun _ _ _ X G).
  - intro X. destruct (ok_group _ _ O) as (_ & x & y & r & ->). rewrite vehicles_group in N.
    assert (v = x) as -> by (destruct X as [q X]; rewrite vehicles_group, listed_cons in X; cbn in X; congruence).
    assert (Y : In x (vehicles e)) by exact (under_in _ _ _ H).
    assert (e = VVeh x) as -> by (apply (listed_unique (VVeh x :: y :: r) e (VVeh x) x); try assumption; left; reflexivity).
    inversion H.
Qed.
Lemma named_in : forall k e v j n, in_named k e v j n -> In v (vehicles e).
Proof.
  intros k e v j n H. induction H as [|k name items e v j n I _ IH]; [assumption|].
  rewrite vehicles_group. apply listed_in. exists e. split; assumption.
Qed.
Lemma named_ge : forall k e v j n, in_named k e v j n -> k <= j.
Proof. intros k e v j n H. induction H; lia. Qed.

(** ** The walk *)
Definition gg (s : order_state) (v : nat) : option nat := dict_get Nat.eqb (o_group s) v.
Definition gn (s : order_state) (v : nat) : option (list (Z * string)) := dict_get Nat.eqb (o_names s) v.
Definition gz (c : list (Z * string)) (j : Z) : option string := dict_get Z.eqb c j.
Definition cb_ok (level : Z) (cb : list (Z * string)) : Prop := NoDup (map fst cb) /\ forall j, In j (map fst cb) -> 0 <= j < level.
Definition names_are (k : Z) (cb : list (Z * string)) (e : vitem) (v : nat) (r : option (list (Z * string))) : Prop :=
  (forall j n, (exists c, r = Some c /\ gz c j = Some n) <-> (gz cb j = Some n \/ in_named k e v j n)) /\
  (forall c, r = Some c -> c <> [] /\ NoDup (map fst c) /\ forall j, In j (map fst c) -> 0 <= j).
Definition walked (group : option nat) (k : Z) (cb : list (Z * string)) (e : vitem) (s s' : order_state) : Prop :=
  o_flat s' = o_flat s ++ vehicles e /\
  (forall v, ~ In v (vehicles e) -> gg s' v = gg s v /\ gn s' v = gn s v) /\
  (forall v, heads e v -> (forall g, group = Some g -> gg s' v = Some g) /\ (group = None -> gg s v = None -> gg s' v = None)) /\
  (forall v, In v (vehicles e) -> ~ heads e v -> forall g, gg s' v = Some g <-> shown_under e v g) /\
  (forall v, In v (vehicles e) -> gn s v = None -> names_are k cb e v (gn s' v)).
Definition walked_list (x : nat) (k : Z) (cb : list (Z * string)) (l : list vitem) (s s' : order_state) : Prop :=
  o_flat s' = o_flat s ++ listed l /\
  (forall v, ~ In v (listed l) -> gg s' v = gg s v /\ gn s' v = gn s v) /\
  (forall e v, In e l -> heads e v -> gg s' v = Some x) /\
  (forall e v, In e l -> In v (vehicles e) -> ~ heads e v -> forall g, gg s' v = Some g <-> shown_under e v g) /\
  (forall e v, In e l -> In v (vehicles e) -> gn s v = None -> names_are k cb e v (gn s' v)).
Definition walks (e : vitem) : Prop := forall group k cb s, vitem_ok e = true -> NoDup (vehicles e) -> 0 <= k -> cb_ok k cb ->
  exists s', process group k cb e s = Some s' /\ walked group k cb e s s'.

Lemma walk_list : forall x k cb l s, Forall walks l -> Forall (fun e => vitem_ok e = true) l -> NoDup (listed l) -> 0 <= k -> cb_ok k cb ->
  exists s', plist (Some x) k cb l s = Some s' /\ walked_list x k cb l s s'.
Proof.
  intros x k cb l s W. revert s. induction W as [|e l We W IH]; intros s O N K C.
  - exists s. split; [reflexivity|]. split; [cbn; now rewrite app_nil_r|]. split; [intros; split; reflexivity|].
    split; [intros e v []|]. split; intros e v [].
  - apply Forall_cons_iff in O as [Oe O]. rewrite listed_cons in N. apply nodup_app in N as (N1 & N2 & D).
    destruct (We (Some x) k cb s Oe N1 K C) as (s1 & P1 & F1 & U1 & H1 & M1 & A1).
    destruct (IH s1 O N2 K C) as (s2 & P2 & F2 & U2 & H2 & M2 & A2).
    assert (R : forall v, In v (vehicles e) -> gg s2 v = gg s1 v /\ gn s2 v = gn s1 v).
    { intros v I. apply U2. intro J. exact (D v J I). }
    exists s2. split; [unfold plist; cbn [bind]; rewrite P1; cbn [bind]; exact P2|].
    split; [rewrite F2, F1, <- app_assoc; reflexivity|]. split; [|split; [|split]].
    + intros v I. rewrite listed_cons in I. assert (I1 : ~ In v (vehicles e)) by (intro; apply I, in_or_app; left; assumption).
      assert (I2 : ~ In v (listed l)) by (intro; apply I, in_or_app; right; assumption).
      destruct (U2 v I2) as [-> ->]. apply U1. exact I1.
    + intros f v [<-|I] E.
      * rewrite (proj1 (R v (heads_in _ _ E))). apply (H1 v E). reflexivity.
      * exact (H2 f v I E).
    + intros f v [<-|I] V E g.
      * rewrite (proj1 (R v V)). exact (M1 v V E g).
      * exact (M2 f v I V E g).
    + intros f v [<-|I] V E.
      * rewrite (proj2 (R v V)). exact (A1 v V E).
      * apply (A2 f v I V). rewrite (proj2 (U1 v (fun X => D v (proj2 (listed_in l v) (ex_intro _ f (conj I V))) X))). exact E.
Qed.
Lemma del_get : forall {V} (d : list (nat * V)) k x, dict_get Nat.eqb (dict_del d k) x = if Nat.eqb x k then None else dict_get Nat.eqb d x.
Proof.
  intros V d k x. unfold dict_del. induction d as [|[k' v] d IH]; cbn [filter dict_get fst]; [destruct (Nat.eqb x k); reflexivity|].
  destruct (Nat.eqb_spec k' k) as [->|N]; cbn [negb].
  - rewrite IH. destruct (Nat.eqb x k); reflexivity.
  - cbn [dict_get]. rewrite IH. destruct (Nat.eqb_spec x k') as [->|M]; [|reflexivity].
    destruct (Nat.eqb_spec k' k) as [E|E]; [contradiction|reflexivity].
Qed.
Lemma walk_all : forall e, walks e.
Proof.
  induction e as [v|name items IH] using vitem_ind'; intros group k cb s O N K C.
  - eexists. split; [reflexivity|]. split; [reflexivity|]. cbn [vehicles]. split; [|split; [|split]].
    + intros w I. assert (w <> v) as Q by (intro; apply I; left; congruence). unfold gg, gn. cbn [o_group o_names]. split.
      * destruct group; [|reflexivity]. apply (gset_neq Nat.eqb Nat.eqb_eq). exact Q.
      * destruct cb; [reflexivity|]. apply (gset_neq Nat.eqb Nat.eqb_eq). exact Q.
    + intros w [r H]. cbn in H. injection H as <- <-. unfold gg. cbn [o_group]. split.
      * intros g ->. apply (gset_eq Nat.eqb Nat.eqb_eq).
      * intros -> G. exact G.
    + intros w [<-|[]] H. exfalso. apply H. exists []. reflexivity.
    + intros w [<-|[]] E. unfold gn in *. cbn [o_names]. split.
      * intros j n. split.
        -- intros (c & R & G). left. destruct cb as [|p cb]; [rewrite E in R; discriminate|].
           rewrite (gset_eq Nat.eqb Nat.eqb_eq) in R. injection R as <-. exact G.
        -- intros [G|G]; [|inversion G]. destruct cb as [|p cb]; [discriminate|]. exists (p :: cb).
           split; [apply (gset_eq Nat.eqb Nat.eqb_eq)|exact G].
      * intros c R. destruct cb as [|p cb]; [rewrite E in R; discriminate|]. rewrite (gset_eq Nat.eqb Nat.eqb_eq) in R. injection R as <-.
        split; [discriminate|]. split; [exact (proj1 C)|]. intros j J. apply (proj2 C j J).
  - destruct (ok_group _ _ O) as (OI & x & y & r & EI). rewrite vehicles_group in N.
    set (cb' := match name with Some n => dict_set Z.eqb cb k n | None => cb end).
    assert (C' : cb_ok (k + 1) cb').
    { destruct C as [C1 C2]. unfold cb'. destruct name as [n|]; split; try assumption.
      - apply (set_nodup Z.eqb Z.eqb_eq). exact C1.
      - intros j J. apply (set_keys Z.eqb Z.eqb_eq) in J as [->|J]; [lia|]. specialize (C2 j J). lia.
      - intros j J. specialize (C2 j J). lia. }
    assert (K' : 0 <= k + 1) by lia.
    destruct (walk_list x (k + 1) cb' items s IH OI N K' C') as (s1 & P & F & U & H & M & A).
    assert (FO : first_of (VGroup name items) = Some x) by (rewrite EI; reflexivity).
    assert (HX : heads (VGroup name items) x) by (exists (listed (y :: r)); rewrite vehicles_group, EI; reflexivity).
    eexists. split; [rewrite process_group, FO; cbn [bind]; fold cb'; rewrite P; cbn [bind]; reflexivity|].
    match goal with |- walked _ _ _ _ _ ?t => set (s2 := t) end.
    assert (GN : forall v, gn s2 v = gn s1 v) by (intro v; unfold s2, gn; destruct group; reflexivity).
    assert (GX : forall v, v <> x -> gg s2 v = gg s1 v).
    { intros v Q. unfold s2, gg. destruct group as [g|]; cbn [o_group].
      - apply (gset_neq Nat.eqb Nat.eqb_eq). exact Q.
      - rewrite del_get. destruct (Nat.eqb_spec v x); [contradiction|reflexivity]. }
    assert (FX : In (VVeh x) items) by (rewrite EI; left; reflexivity). clear EI.
    split; [|split; [|split; [|split]]].
    + rewrite vehicles_group, <- F. unfold s2. destruct group; reflexivity.
    + intros v I. rewrite vehicles_group in I. rewrite GN, GX; [apply U; exact I|].
      intros ->. apply I. apply listed_in. exists (VVeh x). split; [exact FX|left; reflexivity].
    + intros v E. assert (v = x) as -> by exact (heads_fun _ _ _ E HX). unfold s2, gg. split.
      * intros g ->. cbn [o_group]. apply (gset_eq Nat.eqb Nat.eqb_eq).
      * intros -> _. cbn [o_group]. rewrite del_get, Nat.eqb_refl. reflexivity.
    + intros v I E g. rewrite vehicles_group in I. apply listed_in in I as (i & I & V).
      assert (Q : v <> x) by (intros ->; apply E; exact HX). rewrite (GX v Q). split.
      * intro G. destruct (heads_dec i v) as [D|D].
        -- rewrite (H i v I D) in G. injection G as <-. exact (su_member name items i v x I D HX Q).
        -- apply (su_deep name items i v g I). apply (M i v I V D g). exact G.
      * intro G. inversion G as [? ? i' ? ? I' D' G' Q'|? ? i' ? ? I' D']; subst.
        -- assert (g = x) as -> by exact (heads_fun _ _ _ G' HX). exact (H i' v I' D').
        -- assert (V' : In v (vehicles i')) by exact (under_in _ _ _ D').
           apply (M i' v I' V'); [|exact D']. apply (under_not_head i' v g); [|exact (listed_sub _ _ N I')|exact D'].
           exact (proj1 (Forall_forall _ _) OI i' I').
    + intros v I E. rewrite GN. pose proof I as IV. rewrite vehicles_group in I. apply listed_in in I as (i & I & V).
      destruct (A i v I V E) as [A1 A2]. split; [|exact A2]. intros j n. rewrite A1. unfold cb', gz. split.
      * intros [G|G].
        -- destruct name as [nm|]; [|left; exact G]. rewrite (gset Z.eqb Z.eqb_eq) in G. destruct (Z.eqb_spec j k) as [->|Q]; [|left; exact G].
           injection G as <-. right. apply nm_here. exact IV.
        -- right. exact (nm_deep k name items i v j n I G).
      * intros [G|G].
        -- left. destruct name as [nm|]; [|exact G]. rewrite (gset_neq Z.eqb Z.eqb_eq); [exact G|]. intros ->.
           apply (gIn Z.eqb Z.eqb_eq) in G. apply (in_map fst) in G. apply (proj2 C) in G. cbn in G. lia.
        -- inversion G as [? ? ? ? IV'|? ? ? i' ? ? ? I' G']; subst.
           ++ left. rewrite (gset Z.eqb Z.eqb_eq), Z.eqb_refl. reflexivity.
           ++ right. assert (i' = i) as <-; [|exact G'].
              apply (listed_unique items i' i v N I' I); [exact (named_in _ _ _ _ _ G')|exact V].
Qed.

(** ** The whole order *)
Lemma nil_ok : cb_ok 0 [].
Proof. split; [apply NoDup_nil|intros j []]. Qed.
Lemma walk_top : forall l s, Forall (fun e => vitem_ok e = true) l -> NoDup (listed l) ->
  (forall v, In v (listed l) -> gg s v = None /\ gn s v = None) ->
  exists s', process_all l s = Some s' /\ o_flat s' = o_flat s ++ listed l /\
  (forall v, ~ In v (listed l) -> gg s' v = gg s v /\ gn s' v = gn s v) /\
  (forall e v, In e l -> heads e v -> gg s' v = None) /\
  (forall e v, In e l -> In v (vehicles e) -> ~ heads e v -> forall g, gg s' v = Some g <-> shown_under e v g) /\
  (forall e v, In e l -> In v (vehicles e) -> names_are 0 [] e v (gn s' v)).
Proof.
  induction l as [|e l IH]; intros s O N Z0.
  - exists s. split; [reflexivity|]. split; [cbn; now rewrite app_nil_r|]. split; [intros; split; reflexivity|].
    split; [intros e v []|]. split; intros e v [].
  - apply Forall_cons_iff in O as [Oe O]. rewrite listed_cons in N. apply nodup_app in N as (N1 & N2 & D).
    destruct (walk_all e None 0 [] s Oe N1 (Z.le_refl 0) nil_ok) as (s1 & P1 & F1 & U1 & H1 & M1 & A1).
    assert (Z1 : forall v, In v (listed l) -> gg s1 v = None /\ gn s1 v = None).
    { intros v I. destruct (U1 v (D v I)) as [-> ->]. apply Z0. rewrite listed_cons. apply in_or_app. right. exact I. }
    destruct (IH s1 O N2 Z1) as (s2 & P2 & F2 & U2 & H2 & M2 & A2).
    assert (R : forall v, In v (vehicles e) -> gg s2 v = gg s1 v /\ gn s2 v = gn s1 v).
    { intros v I. apply U2. intro J. exact (D v J I). }
    assert (ZE : forall v, In v (vehicles e) -> gg s v = None /\ gn s v = None).
    { intros v I. apply Z0. rewrite listed_cons. apply in_or_app. left. exact I. }
    exists s2. split; [cbn [process_all]; rewrite P1; cbn [bind]; exact P2|].
    split; [rewrite F2, F1, <- app_assoc; reflexivity|]. split; [|split; [|split]].
    + intros v I. rewrite listed_cons in I. assert (I1 : ~ In v (vehicles e)) by (intro; apply I, in_or_app; left; assumption).
      assert (I2 : ~ In v (listed l)) by (intro; apply I, in_or_app; right; assumption).
      destruct (U2 v I2) as [-> ->]. apply U1. exact I1.
    + intros f v [<-|I] E.
      * rewrite (proj1 (R v (heads_in _ _ E))). apply (H1 v E); [reflexivity|]. apply ZE, heads_in. exact E.
      * exact (H2 f v I E).
    + intros f v [<-|I] V E g.
      * rewrite (proj1 (R v V)). exact (M1 v V E g).
      * exact (M2 f v I V E g).
    + intros f v [<-|I] V.
      * rewrite (proj2 (R v V)). apply (A1 v V). apply ZE. exact V.
      * exact (A2 f v I V).
Qed.
Lemma order_ok : forall l, Forall (fun e => vitem_ok e = true) l -> NoDup (listed l) -> listed l <> [] ->
  exists s, purchase_order l = Some s /\ o_flat s = listed l /\
  (forall v g, gg s v = Some g <-> exists e, In e l /\ shown_under e v g) /\
  (forall v j n, (exists c, gn s v = Some c /\ gz c j = Some n) <-> exists e, In e l /\ in_named 0 e v j n) /\
  (forall v c, gn s v = Some c -> In v (listed l) /\ c <> [] /\ NoDup (map fst c) /\ forall j, In j (map fst c) -> 0 <= j).
Proof.
  intros l O N E. destruct (walk_top l (mkOrd [] [] []) O N) as (s & P & F & U & H & M & A); [intros; split; reflexivity|].
  assert (X : forall v, In v (listed l) \/ ~ In v (listed l)) by (intro v; destruct (in_dec Nat.eq_dec v (listed l)); tauto).
  exists s. split; [|split; [exact F|split; [|split]]].
  - unfold purchase_order. replace (forallb vitem_ok l) with true; [|symmetry; apply forallb_forall; apply Forall_forall; exact O].
    rewrite P. cbn [bind]. rewrite F. cbn [o_flat app]. destruct (listed l); [contradiction|reflexivity].
  - intros v g. destruct (X v) as [I|I].
    + apply listed_in in I as (i & I & V). destruct (heads_dec i v) as [D|D].
      * rewrite (H i v I D). split; [discriminate|]. intros (e & J & Q). exfalso.
        assert (e = i) as -> by (apply (listed_unique l e i v N J I); [exact (under_in _ _ _ Q)|exact V]).
        apply (under_not_head i v g); try assumption; [exact (proj1 (Forall_forall _ _) O i I)|exact (listed_sub _ _ N I)].
      * rewrite (M i v I V D g). split; [intro Q; exists i; split; assumption|]. intros (e & J & Q).
        assert (e = i) as -> by (apply (listed_unique l e i v N J I); [exact (under_in _ _ _ Q)|exact V]). exact Q.
    + rewrite (proj1 (U v I)). split; [discriminate|]. intros (e & J & Q). exfalso. apply I. apply listed_in. exists e.
      split; [exact J|exact (under_in _ _ _ Q)].
  - intros v j n. destruct (X v) as [I|I].
    + apply listed_in in I as (i & I & V). rewrite (proj1 (A i v I V) j n). split.
      * intros [G|G]; [discriminate|]. exists i. split; assumption.
      * intros (e & J & Q). right. assert (e = i) as -> by (apply (listed_unique l e i v N J I); [exact (named_in _ _ _ _ _ Q)|exact V]). exact Q.
    + rewrite (proj2 (U v I)). split; [intros (c & G & _); discriminate|]. intros (e & J & Q). exfalso. apply I. apply listed_in. exists e.
      split; [exact J|exact (named_in _ _ _ _ _ Q)].
  - intros v c G. destruct (X v) as [I|I].
    + split; [exact I|]. apply listed_in in I as (i & I & V). exact (proj2 (A i v I V) c G).
    + rewrite (proj2 (U v I)) in G. discriminate.
Qed.

(** ** The moves *)
Lemma put_before_here : forall v t a b, ~ In t a -> put_before v t (a ++ t :: b) = a ++ v :: t :: b.
Proof.
  induction a as [|x a IH]; intros b N; cbn [app put_before].
  - rewrite Z.eqb_refl. reflexivity.
  - destruct (Z.eqb_spec x t) as [->|_]; [exfalso; apply N; left; reflexivity|]. rewrite IH; [reflexivity|]. intro; apply N; right; assumption.
Qed.
Lemma mem_z_In : forall x l, mem_z x l = true <-> In x l.
Proof.
  intros. unfold mem_z. rewrite existsb_exists. split; [intros (y & I & E); apply Z.eqb_eq in E as ->; exact I|].
  intro I. exists x. split; [exact I|apply Z.eqb_refl].
Qed.
Definition rm (v : Z) (l : list Z) : list Z := filter (fun x => negb (x =? v)) l.
Lemma rm_notin : forall v l, ~ In v l -> rm v l = l.
Proof.
  induction l as [|x l IH]; intro N; [reflexivity|]. unfold rm. cbn [filter]. destruct (Z.eqb_spec x v) as [->|_]; [exfalso; apply N; left; reflexivity|].
  cbn [negb]. f_equal. apply IH. intro; apply N; right; assumption.
Qed.
Lemma rm_in : forall v l x, In x (rm v l) <-> In x l /\ x <> v.
Proof. intros. unfold rm. rewrite filter_In, negb_true_iff, Z.eqb_neq. reflexivity. Qed.
Lemma move_step : forall v p D pre post, NoDup (pre ++ p :: D ++ post) -> In v (pre ++ post) ->
  move_before v p (pre ++ p :: D ++ post) = rm v pre ++ v :: p :: D ++ rm v post.
Proof.
  intros v p D pre post N I.
  assert (PD : ~ In v (p :: D)).
  { intro J. apply nodup_app in N as (N1 & N2 & N3). apply in_app_or in I as [I|I].
    - apply (N3 v); [change (In v ((p :: D) ++ post)); apply in_or_app; left; exact J|exact I].
    - change (NoDup ((p :: D) ++ post)) in N2. apply nodup_app in N2 as (_ & _ & N2). exact (N2 v I J). }
  assert (PP : ~ In p pre) by (intro J; apply nodup_app in N as (_ & _ & N3); apply (N3 p); [left; reflexivity|exact J]).
  unfold move_before. destruct (Z.eqb_spec v p) as [->|_]; [exfalso; apply PD; left; reflexivity|].
  replace (mem_z v (pre ++ p :: D ++ post)) with true.
  2:{ symmetry. apply mem_z_In. apply in_app_or in I as [I|I]; apply in_or_app; [left; exact I|]. right. right. apply in_or_app. right. exact I. }
  replace (mem_z p (pre ++ p :: D ++ post)) with true.
  2:{ symmetry. apply mem_z_In. apply in_or_app. right. left. reflexivity. }
  cbn [negb orb]. fold (rm v (pre ++ p :: D ++ post)).
  replace (rm v (pre ++ p :: D ++ post)) with (rm v pre ++ p :: D ++ rm v post).
  - apply put_before_here. intro J. apply rm_in in J as [J _]. exact (PP J).
  - unfold rm. rewrite filter_app. change (p :: D ++ post) with ((p :: D) ++ post). rewrite filter_app. fold (rm v (p :: D)). rewrite (rm_notin v (p :: D) PD). reflexivity.
Qed.
Fixpoint chain (p : Z) (rest : list Z) (L : list Z) : list Z :=
  match rest with [] => L | v :: rest => chain v rest (move_before v p L) end.
Definition out (order : list Z) (x : Z) : bool := negb (mem_z x order).
Lemma filter_out_cons : forall v rest l, filter (out (v :: rest)) l = filter (out rest) (rm v l).
Proof.
  intros. unfold rm. induction l as [|x l IH]; [reflexivity|]. cbn [filter].
  replace (out (v :: rest) x) with (negb (x =? v) && out rest x) by (unfold out; cbn [mem_z existsb]; rewrite negb_orb; reflexivity).
  destruct (x =? v); cbn [negb andb]; [exact IH|]. cbn [filter]. destruct (out rest x); [f_equal|]; exact IH.
Qed.
Lemma filter_out_nil : forall l, filter (out []) l = l.
Proof. induction l as [|x l IH]; [reflexivity|]. cbn [filter]. change (out [] x) with true. cbn iota. now rewrite IH. Qed.
Lemma nodup_rm : forall v pre M post, NoDup (pre ++ M ++ post) -> ~ In v M -> In v (pre ++ post) -> NoDup (rm v pre ++ (v :: M) ++ rm v post).
Proof.
  intros v pre M post N NM I.
  assert (P : Permutation (rm v pre ++ (v :: M) ++ rm v post) (v :: rm v (pre ++ M ++ post))).
  { unfold rm. rewrite !filter_app. fold (rm v pre) (rm v M) (rm v post). rewrite (rm_notin v M NM). cbn [app].
    apply Permutation_sym. apply Permutation_middle. }
  apply (Permutation_NoDup (Permutation_sym P)). apply NoDup_cons; [intro J; apply rm_in in J as [_ J]; contradiction|].
  apply NoDup_filter. exact N.
Qed.
Lemma chain_ok : forall rest p D pre post, NoDup (pre ++ (p :: D) ++ post) -> NoDup rest -> (forall v, In v rest -> In v (pre ++ post)) ->
  chain p rest (pre ++ (p :: D) ++ post) = filter (out rest) pre ++ (rev rest ++ p :: D) ++ filter (out rest) post.
Proof.
  induction rest as [|v rest IH]; intros p D pre post N NR H; cbn [chain rev].
  - rewrite !filter_out_nil. reflexivity.
  - pose proof (H v (or_introl eq_refl)) as I. apply NoDup_cons_iff in NR as [NV NR].
    rewrite (move_step v p D pre post N I : move_before v p (pre ++ (p :: D) ++ post) = _).
    assert (NM : ~ In v (p :: D)).
    { intro J. apply nodup_app in N as (N1 & N2 & N3). apply in_app_or in I as [I|I].
      - apply (N3 v); [apply in_or_app; left; exact J|exact I].
      - apply nodup_app in N2 as (_ & _ & N2). exact (N2 v I J). }
    change (rm v pre ++ v :: p :: D ++ rm v post) with (rm v pre ++ (v :: p :: D) ++ rm v post). rewrite IH.
    + rewrite !filter_out_cons. rewrite <- !app_assoc. reflexivity.
    + exact (nodup_rm v pre (p :: D) post N NM I).
    + exact NR.
    + intros w W. specialize (H w (or_intror W)). assert (w <> v) by (intros ->; contradiction).
      apply in_app_or in H as [H|H]; apply in_or_app; [left|right]; apply rm_in; split; assumption.
Qed.
Lemma apply_order : forall ft vid grp rest p L,
  apply_defines (order_sprites ft vid grp (Some p) rest) L = chain (vid p) (map vid rest) L.
Proof.
  induction rest as [|v rest IH]; intros p L; [reflexivity|]. cbn [order_sprites map chain].
  unfold apply_defines in *. destruct (dict_get Nat.eqb grp v) as [g|]; cbn [app fold_left]; rewrite IH; f_equal.
Qed.
Lemma apply_order_first : forall ft vid grp p rest L,
  apply_defines (order_sprites ft vid grp None (p :: rest)) L = chain (vid p) (map vid rest) L.
Proof.
  intros. cbn [order_sprites]. destruct (dict_get Nat.eqb grp p) as [g|]; cbn [app].
  - unfold apply_defines. cbn [fold_left]. exact (apply_order ft vid grp rest p L).
  - exact (apply_order ft vid grp rest p L).
Qed.
Lemma out_ext : forall a b l, (forall x, In x a <-> In x b) -> filter (out a) l = filter (out b) l.
Proof.
  intros a b l H. apply filter_ext. intro x. unfold out. f_equal. apply eq_true_iff_eq. rewrite !mem_z_In. apply H.
Qed.
Lemma filter_out_drop : forall p rest l, ~ In p l -> filter (out rest) l = filter (out (p :: rest)) l.
Proof. intros. rewrite filter_out_cons, rm_notin by assumption. reflexivity. Qed.
Lemma order_applied : forall ft vid s order L last, o_flat s = order -> order <> [] -> NoDup (map vid order) -> NoDup L ->
  incl (map vid order) L -> last = vid (List.last order O) ->
  exists a b, L = a ++ last :: b /\
  apply_defines (get_sprites ft vid s) L = filter (out (map vid order)) a ++ map vid order ++ filter (out (map vid order)) b.
Proof.
  intros ft vid s order L last F NE NO NL I E. unfold get_sprites. rewrite F.
  destruct (exists_last NE) as (rest & p & ->). rewrite last_last in E. subst last.
  rewrite rev_app_distr. cbn [rev app]. rewrite map_app in *. cbn [map] in *.
  assert (J : In (vid p) L) by (apply I, in_or_app; right; left; reflexivity).
  apply in_split in J as (a & b & ->). exists a, b. split; [reflexivity|]. rewrite apply_order_first.
  change (vid p :: b) with ([vid p] ++ b) in *. apply NoDup_remove in NO as [NO NP]. rewrite app_nil_r in NO, NP.
  assert (PA : ~ In (vid p) a /\ ~ In (vid p) b).
  { apply NoDup_remove in NL as [_ NL]. split; intro; apply NL, in_or_app; [left|right]; assumption. }
  assert (Q : forall l, ~ In (vid p) l -> filter (out (map vid (rev rest))) l = filter (out (map vid rest ++ [vid p])) l).
  { intros l NI. rewrite (filter_out_drop (vid p) _ l NI). apply out_ext. intro x. rewrite map_rev. cbn [In]. rewrite <- in_rev, in_app_iff. cbn. tauto. }
  rewrite (chain_ok (map vid (rev rest)) (vid p) [] a b NL).
  - rewrite (Q a (proj1 PA)), (Q b (proj2 PA)), map_rev, rev_involutive. reflexivity.
  - rewrite map_rev. apply NoDup_rev. exact NO.
  - intros v V. rewrite map_rev, <- in_rev in V. assert (v <> vid p) by (intros ->; contradiction).
    assert (W : In v (a ++ [vid p] ++ b)) by (apply I, in_or_app; left; exact V).
    apply in_app_or in W as [W|W]; [apply in_or_app; left; exact W|]. cbn in W. destruct W as [W|W]; [congruence|]. apply in_or_app. right. exact W.
Qed.

(** ** The records *)
Lemma order_codes : forall ft vid grp l prev, 0 <= ft <= 3 -> (forall v, 0 <= vid v <= 65535) ->
  Forall (fun d => exists b, define_codes d d b) (order_sprites ft vid grp prev l).
Proof.
  intros ft vid grp l prev F R. revert prev. induction l as [|v l IH]; intro prev; [apply Forall_nil|].
  assert (FS : ft = 0 \/ ft = 1 \/ ft = 2 \/ ft = 3) by lia.
  assert (B1 : exists c, by_name ft "sort_purchase_list" = Some (c, PId true)) by (repeat destruct FS as [->|FS]; try subst ft; eexists; reflexivity).
  assert (B2 : exists c, by_name ft "variant_group" = Some (c, PId false)) by (repeat destruct FS as [->|FS]; try subst ft; eexists; reflexivity).
  destruct B1 as [c1 B1], B2 as [c2 B2].
  assert (T : exists t, In (ft, t) ACTION0_PROPS).
  { repeat destruct FS as [->|FS]; try subst ft; eexists; [left|right; left|right; right; left|right; right; right; left]; reflexivity. }
  assert (S1 : forall x, exists b, codes (PId true) (VInt (vid x)) (VInt (vid x)) b).
  { intro x. specialize (R x). destruct (Z.ltb_spec (vid x) 255); eexists; [apply c_id_short|apply c_id_long]; try (left; reflexivity); lia. }
  assert (S2 : forall x, exists b, codes (PId false) (VInt (vid x)) (VInt (vid x)) b).
  { intro x. specialize (R x). eexists. apply c_id; [left; reflexivity|lia]. }
  assert (V1 : forall x, exists b, props_code ft 1 [("sort_purchase_list", [VInt (vid x)])] [("sort_purchase_list", [VInt (vid x)])] b).
  { intro x. destruct (S1 x) as [b C]. eexists. apply pc_cons with (PId true); [exact (by_name_has _ _ _ _ B1)|reflexivity| |apply pc_nil].
    apply vc_cons with (1 := C). apply vc_nil. }
  assert (V2 : forall x, exists b, props_code ft 1 [("variant_group", [VInt (vid x)])] [("variant_group", [VInt (vid x)])] b).
  { intro x. destruct (S2 x) as [b C]. eexists. apply pc_cons with (PId false); [exact (by_name_has _ _ _ _ B2)|reflexivity| |apply pc_nil].
    apply vc_cons with (1 := C). apply vc_nil. }
  assert (V3 : forall x y, exists b, props_code ft 1 [("sort_purchase_list", [VInt (vid x)]); ("variant_group", [VInt (vid y)])]
    [("sort_purchase_list", [VInt (vid x)]); ("variant_group", [VInt (vid y)])] b).
  { intros x y. destruct (S1 x) as [b C]. destruct (V2 y) as [b2 C2]. eexists. apply pc_cons with (PId true); [exact (by_name_has _ _ _ _ B1)|reflexivity| |exact C2].
    apply vc_cons with (1 := C). apply vc_nil. }
  assert (DC : forall ps b, len ps < 256 -> NoDup (map fst ps) -> props_code ft 1 ps ps b -> exists b', define_codes (mkDef ft (vid v) 1 ps) (mkDef ft (vid v) 1 ps) b').
  { intros ps b L N P. eexists. apply dc; [specialize (R v); lia|lia|exact L|exact N|exact T|exact P]. }
  cbn [order_sprites]. destruct prev as [p|], (dict_get Nat.eqb grp v) as [g|]; cbn [app].
  - apply Forall_cons; [|apply IH]. destruct (V3 p g) as [b P]. apply (DC _ b); [reflexivity| |exact P].
    cbn [map fst]. apply NoDup_cons; [cbn; intros [X|[]]; discriminate X|]. apply NoDup_cons; [intros []|apply NoDup_nil].
  - apply Forall_cons; [|apply IH]. destruct (V1 p) as [b P]. apply (DC _ b); [reflexivity| |exact P].
    cbn [map fst]. apply NoDup_cons; [intros []|apply NoDup_nil].
  - apply Forall_cons; [|apply IH]. destruct (V2 g) as [b P]. apply (DC _ b); [reflexivity| |exact P].
    cbn [map fst]. apply NoDup_cons; [intros []|apply NoDup_nil].
  - apply IH.
Qed.
Lemma order_variants : forall ft vid grp l prev v g, NoDup l -> 
  ((exists d, In d (order_sprites ft vid grp prev l) /\ df_first d = vid v /\ In ("variant_group", [VInt g]) (df_props d)) <->
   exists w h, In w l /\ vid w = vid v /\ dict_get Nat.eqb grp w = Some h /\ g = vid h).
Proof.
  intros ft vid grp l prev v g N. revert prev. induction l as [|x l IH]; intro prev.
  - split; [intros (d & [] & _)|intros (w & h & [] & _)].
  - apply NoDup_cons_iff in N as [NX N]. specialize (IH N).
    assert (ST : forall P : define -> Prop, (exists d, In d (order_sprites ft vid grp prev (x :: l)) /\ P d) <->
      (match prev, dict_get Nat.eqb grp x with None, None => False | _, _ =>
         P (mkDef ft (vid x) 1 (match prev with Some p => [("sort_purchase_list", [VInt (vid p)])] | None => [] end ++
            match dict_get Nat.eqb grp x with Some g => [("variant_group", [VInt (vid g)])] | None => [] end)) end \/
       exists d, In d (order_sprites ft vid grp (Some x) l) /\ P d)).
    { intro P. cbn [order_sprites]. destruct prev as [p|], (dict_get Nat.eqb grp x) as [h|]; cbn [app].
      - split; [intros (d & [<-|I] & H); [left; exact H|right; exists d; split; assumption]
          |intros [H|(d & I & H)]; [eexists; split; [left; reflexivity|exact H]|exists d; split; [right; exact I|exact H]]].
      - split; [intros (d & [<-|I] & H); [left; exact H|right; exists d; split; assumption]
          |intros [H|(d & I & H)]; [eexists; split; [left; reflexivity|exact H]|exists d; split; [right; exact I|exact H]]].
      - split; [intros (d & [<-|I] & H); [left; exact H|right; exists d; split; assumption]
          |intros [H|(d & I & H)]; [eexists; split; [left; reflexivity|exact H]|exists d; split; [right; exact I|exact H]]].
      - split; [intro H; right; exact H|intros [[]|H]; exact H]. }
    rewrite (ST (fun d => df_first d = vid v /\ In ("variant_group", [VInt g]) (df_props d))). rewrite (IH (Some x)). split.
    + intros [H|(w & h & I & E & G & Q)]; [|exists w, h; split; [right; exact I|split; [exact E|split; assumption]]].
      destruct prev as [p|], (dict_get Nat.eqb grp x) as [h|] eqn:GX; try contradiction; destruct H as [E H]; cbn [df_first df_props app] in E, H.
      * destruct H as [H|[H|[]]]; [discriminate H|]. injection H as H. exists x, h. split; [left; reflexivity|]. split; [exact E|]. split; [exact GX|congruence].
      * destruct H as [H|[]]. discriminate H.
      * destruct H as [H|[]]. injection H as H. exists x, h. split; [left; reflexivity|]. split; [exact E|]. split; [exact GX|congruence].
    + intros (w & h & [<-|I] & E & G & Q).
      * left. rewrite G. subst g. destruct prev as [p|]; (split; [exact E|]); cbn [df_props app]; [right; left; reflexivity|left; reflexivity].
      * right. exists w, h. split; [exact I|]. split; [exact E|]. split; assumption.
Qed.
(** The switch of set_variant_callbacks *)
Lemma lor_level : forall j, 0 <= j -> Z.lor 32 (Z.shiftl j 8) = 32 + 256 * j.
Proof. intros j J. rewrite (lor_shift 32 j 8) by lia. change (2 ^ 8) with 256. lia. Qed.
Lemma ranges_get : forall text names k t, NoDup (map fst names) -> (forall j, In j (map fst names) -> 0 <= j) ->
  (dict_get Z.eqb (variant_ranges text names) k = Some t <-> exists j n, gz names j = Some n /\ k = 32 + 256 * j /\ t = text n).
Proof.
  intros text names k t N P.
  assert (E : variant_ranges text names = map (fun e => (32 + 256 * fst e, text (snd e))) names).
  { unfold variant_ranges.
    transitivity (fold_left (fun m kv => dict_set Z.eqb m (fst kv) (snd kv)) (map (fun e => (32 + 256 * fst e, text (snd e))) names) []).
    - generalize (@nil (Z * Z)). clear N. induction names as [|[j n] names IH]; intro acc; [reflexivity|]. cbn [fold_left map fst snd].
      rewrite lor_level by (apply P; left; reflexivity). apply IH. intros i I. apply P. right. exact I.
    - rewrite (fold_dict_set Z.eqb Z.eqb_eq); [reflexivity|]. cbn [app]. rewrite map_map. cbn [fst].
      clear P. induction names as [|[j n] names IH]; [apply NoDup_nil|]. cbn [map fst] in *. apply NoDup_cons_iff in N as [N1 N2].
      apply NoDup_cons; [|exact (IH N2)]. intro I. apply in_map_iff in I as ([j' n'] & I & J). cbn [fst] in I. assert (j' = j) as -> by lia.
      apply N1. apply (in_map fst) in J. exact J. }
  rewrite E. clear E P. induction names as [|[j n] names IH]; cbn [map dict_get fst snd gz].
  - split; [discriminate|intros (j & n & G & _); discriminate].
  - cbn [map fst] in N. apply NoDup_cons_iff in N as [N1 N2]. destruct (Z.eqb_spec k (32 + 256 * j)) as [->|Q].
    + split.
      * intro X. injection X as <-. exists j, n. unfold gz. cbn [dict_get]. rewrite Z.eqb_refl. repeat split; reflexivity.
      * intros (j' & n' & G & X & ->). assert (j' = j) as -> by lia. unfold gz in G. cbn [dict_get] in G. rewrite Z.eqb_refl in G. injection G as ->. reflexivity.
    + rewrite (IH N2). unfold gz. cbn [dict_get]. split; intros (j' & n' & G & X & T); exists j', n'; (split; [|split; assumption]).
      * destruct (Z.eqb_spec j' j) as [->|]; [contradiction|exact G].
      * destruct (Z.eqb_spec j' j) as [->|]; [exfalso; apply Q; exact X|exact G].
Qed.
