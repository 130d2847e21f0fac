From Coq Require Import ZArith List Bool Lia Arith String Decimal DecimalNat DecimalString.
From Verif Require Import Base BaseFacts RecordsModel IdMapProofs StringsModel SpecStrings.
Import ListNotations.
Open Scope Z_scope.

Lemma auto_name_inj : forall j k, auto_name j = auto_name k -> j = k.
Proof.
  intros j k H. unfold auto_name in H. cbn [append] in H.
  injection H as H. apply Unsigned.to_uint_inj.
  assert (Q : NilEmpty.uint_of_string (NilEmpty.string_of_uint (Nat.to_uint j)) = NilEmpty.uint_of_string (NilEmpty.string_of_uint (Nat.to_uint k))) by now rewrite H.
  rewrite !NilEmpty.usu in Q. now apply some_inj in Q.
Qed.

(** ** Tables of registered references *)
Definition table := list (Z * (Z * sref)).
Definition tab_ok (base : Z) (t : table) : Prop :=
  NoDup (map fst t) /\ forall k h i r, nth_error t k = Some (h, (i, r)) -> i = base + Z.of_nat k /\ r_hash r = h.
Definition reg (base : Z) (t : table) (r : sref) : table * Z :=
  match dict_get Z.eqb t (r_hash r) with
  | Some (i, _) => (t, i)
  | None => (dict_set Z.eqb t (r_hash r) (len t + base, r), len t + base)
  end.
Lemma tab_key_pos : forall (t : table) j k h a b, NoDup (map fst t) -> nth_error t j = Some (h, a) -> nth_error t k = Some (h, b) -> j = k.
Proof.
  intros t j k h a b N J K. apply (NoDup_nth_error (map fst t)); [exact N| |].
  - rewrite map_length. apply nth_error_Some. congruence.
  - now rewrite (map_nth_error fst _ _ J), (map_nth_error fst _ _ K).
Qed.
Lemma tset_fresh : forall (t : table) h s, dict_get Z.eqb t h = None -> dict_set Z.eqb t h s = t ++ [(h, s)].
Proof.
  induction t as [|[k v] t IH]; intros h s H; [reflexivity|]. cbn [dict_get dict_set] in *. destruct (Z.eqb h k); [discriminate|].
  now rewrite IH.
Qed.
Lemma nodup_snoc : forall (A : Type) (l : list A) x, NoDup l -> ~ In x l -> NoDup (l ++ [x]).
Proof.
  intros A l x N H. rewrite <- (rev_involutive (l ++ [x])). apply NoDup_rev. rewrite rev_app_distr. cbn. constructor; [now rewrite <- in_rev|now apply NoDup_rev].
Qed.
Lemma reg_spec : forall base t r t' i, tab_ok base t -> reg base t r = (t', i) ->
  tab_ok base t' /\ (exists l, t' = t ++ l) /\
  (exists k r0, nth_error t' k = Some (r_hash r, (i, r0)) /\ (r0 = r \/ t' = t)) /\
  (forall k h j r0, nth_error t' k = Some (h, (j, r0)) -> nth_error t k = Some (h, (j, r0)) \/ r0 = r).
Proof.
  intros base t r t' i [N T] H. unfold reg in H. destruct (dict_get Z.eqb t (r_hash r)) as [[j r0]|] eqn:G.
  - apply pair_inj in H as [<- <-]. split; [split; assumption|]. split; [exists []; now rewrite app_nil_r|]. split; [|auto].
    apply (gIn Z.eqb Z.eqb_eq) in G. apply In_nth_error in G as [k K]. exists k, r0. auto.
  - apply pair_inj in H as [<- <-]. rewrite (tset_fresh _ _ _ G). assert (L : forall k, k = List.length t -> nth_error (t ++ [(r_hash r, (len t + base, r))]) k = Some (r_hash r, (len t + base, r))).
    { intros k ->. rewrite nth_error_app2, Nat.sub_diag by lia. reflexivity. }
    assert (C : forall k h j r0, nth_error (t ++ [(r_hash r, (len t + base, r))]) k = Some (h, (j, r0)) ->
       nth_error t k = Some (h, (j, r0)) \/ (k = List.length t /\ h = r_hash r /\ j = len t + base /\ r0 = r)).
    { intros k h j r0 K. destruct (lt_dec k (List.length t)) as [Lk|Lk]; [left; now rewrite nth_error_app1 in K by exact Lk|].
      rewrite nth_error_app2 in K by lia. destruct (k - List.length t)%nat as [|x] eqn:X; [|destruct x; discriminate].
      cbn in K. apply some_inj in K. injection K as <- <- <-. right. split; [lia|auto]. }
    split; [split|split; [|split]].
    + rewrite map_app. apply nodup_snoc; [exact N|]. now apply (gNone Z.eqb Z.eqb_eq).
    + intros k h j r0 K. destruct (C _ _ _ _ K) as [K'|(-> & -> & -> & ->)]; [now apply T|]. unfold len. split; [lia|reflexivity].
    + eexists. reflexivity.
    + exists (List.length t), r. split; [now apply L|now left].
    + intros k h j r0 K. destruct (C _ _ _ _ K) as [K'|(_ & _ & _ & ->)]; auto.
Qed.
Lemma reg_global : forall m r, add_global m r = let '(t, i) := reg 0 (m_globals m) r in
  (mkSM t (m_persistents m) (m_default m) (m_next_string m) (m_named m), i).
Proof.
  intros [a b c d e] r. unfold add_global, reg. cbn. destruct (dict_get Z.eqb a (r_hash r)) as [[i r0]|]; [reflexivity|].
  rewrite Z.add_0_r. reflexivity.
Qed.
Lemma reg_persistent : forall m r, add_persistent m r = let '(t, i) := reg 56320 (m_persistents m) r in
  (mkSM (m_globals m) t (m_default m) (m_next_string m) (m_named m), i).
Proof.
  intros [a b c d e] r. unfold add_persistent, reg. cbn. destruct (dict_get Z.eqb b (r_hash r)) as [[i r0]|]; reflexivity.
Qed.

(** ** Invariant of a run *)
Section Inv.
  Variable hname : string -> Z.
  Notation dget m := (dict_get String.eqb m).
  Record minv (m : smgr) (tr : list (sop * sres)) : Prop := mkMI {
    i_g : tab_ok 0 (m_globals m);
    i_p : tab_ok 56320 (m_persistents m);
    i_gt : forall r x, In (OGlobal r, x) tr -> exists i k r0, x = RId i /\ nth_error (m_globals m) k = Some (r_hash r, (i, r0));
    i_pt : forall r x, In (OPersistent r, x) tr -> exists i k r0, x = RId i /\ nth_error (m_persistents m) k = Some (r_hash r, (i, r0));
    i_gs : forall k h i r, nth_error (m_globals m) k = Some (h, (i, r)) -> In r (globals_of (map fst tr));
    i_ps : forall k h i r, nth_error (m_persistents m) k = Some (h, (i, r)) -> In r (persistents_of (map fst tr));
    i_add : forall t x, In (OAdd t, x) tr -> exists n, dget (m_named m) t = Some n /\ x = RRef (name_ref hname n);
    i_named : forall t n, dget (m_named m) t = Some n -> (exists k, (k < m_next_string m)%nat /\ n = auto_name k) /\ dget (m_default m) n = Some t;
    i_def : forall n t, dget (m_default m) n = Some t -> (exists k, (k < m_next_string m)%nat /\ n = auto_name k) \/ (exists t, In (ONamed t n) (map fst tr));
    i_own : forall t n x, In (ONamed t n, x) tr -> forall r, x = RRef r -> r = name_ref hname n /\ dget (m_default m) n = Some t }.

  Definition of_op (o : sop) : Prop := match o with ONamed _ n => forall k, n <> auto_name k | _ => True end.

  Lemma handle_spec : forall m n t m' ok, handle_text m n t = (m', ok) ->
    m_globals m' = m_globals m /\ m_persistents m' = m_persistents m /\ m_next_string m' = m_next_string m /\ m_named m' = m_named m /\
    (if ok then dget (m_default m) n = None /\ m_default m' = dict_set String.eqb (m_default m) n t
     else m' = m /\ dget (m_default m) n <> None).
  Proof.
    intros m n t m' ok H. unfold handle_text in H. destruct (dget (m_default m) n) eqn:G; apply pair_inj in H as [<- <-]; cbn; repeat (split; [reflexivity|]).
    - congruence.
    - auto.
  Qed.

  Lemma map_fst_app : forall tr (o : sop) (x : sres), map fst (tr ++ [(o, x)]) = map fst tr ++ [o].
  Proof. intros. now rewrite map_app. Qed.
  Lemma minv_step : forall m tr o m' x, minv m tr -> of_op o -> (forall t n, In (ONamed t n) (map fst tr) -> forall k, n <> auto_name k) ->
    sstep hname m o = (m', x) -> minv m' (tr ++ [(o, x)]).
  Proof.
    intros m tr o m' x [G P Gt Pt Gs Ps Ad Nm Df Ow] O U H.
    assert (gl : forall a, incl (globals_of (map fst tr)) (globals_of (map fst (tr ++ [a])))).
    { intros [a b] r R. rewrite map_fst_app. unfold globals_of in *. rewrite flat_map_app. apply in_or_app. now left. }
    assert (pl : forall a, incl (persistents_of (map fst tr)) (persistents_of (map fst (tr ++ [a])))).
    { intros [a b] r R. rewrite map_fst_app. unfold persistents_of in *. rewrite flat_map_app. apply in_or_app. now left. }
    assert (named_ops : forall a t n, In (ONamed t n) (map fst tr) -> In (ONamed t n) (map fst (tr ++ [a]))).
    { intros [a b] t n R. rewrite map_fst_app. apply in_or_app. now left. }
    destruct o as [t|t n|r|r]; cbn [sstep] in H.
    - unfold add in H. destruct (dget (m_named m) t) as [n|] eqn:E.
      + apply pair_inj in H as [<- <-].
        constructor; try assumption.
        * intros r x R. apply in_app_iff in R as [R|[R|[]]]; [now apply Gt|discriminate].
        * intros r x R. apply in_app_iff in R as [R|[R|[]]]; [now apply Pt|discriminate].
        * intros k h i r K. apply gl. eapply Gs; eauto.
        * intros k h i r K. apply pl. eapply Ps; eauto.
        * intros s x R. apply in_app_iff in R as [R|[R|[]]]; [now apply Ad|]. apply pair_inj in R as [R1 <-]. injection R1 as <-. eauto.
        * intros a b X. destruct (Df a b X) as [Q|[u Q]]; [now left|right; exists u; now apply named_ops].
        * intros a b x R. apply in_app_iff in R as [R|[R|[]]]; [now apply Ow|discriminate].
      + destruct (handle_text _ (auto_name (m_next_string m)) t) as [m1 ok] eqn:HT.
        apply handle_spec in HT as (A1 & A2 & A3 & A4 & A5). cbn [m_globals m_persistents m_next_string m_named m_default] in *.
        assert (Fr : dget (m_default m) (auto_name (m_next_string m)) = None).
        { destruct (dget (m_default m) (auto_name (m_next_string m))) as [u|] eqn:D; [|reflexivity]. exfalso.
          destruct (Df _ _ D) as [(k & L & Q)|[u' Q]]; [apply auto_name_inj in Q; lia|]. exact (U _ _ Q _ eq_refl). }
        destruct ok; [|destruct A5 as [_ A5]; contradiction]. destruct A5 as [_ A5]. apply pair_inj in H as [<- <-].
        assert (mono : forall a b, dget (m_default m) a = Some b -> dget (m_default m1) a = Some b).
        { intros a b X. rewrite A5, gset_neq; [exact X|apply String.eqb_eq|]. intros ->. congruence. }
        constructor; rewrite ?A1, ?A2; try assumption.
        * intros r x R. apply in_app_iff in R as [R|[R|[]]]; [now apply Gt|discriminate].
        * intros r x R. apply in_app_iff in R as [R|[R|[]]]; [now apply Pt|discriminate].
        * intros k h i r K. apply gl. eapply Gs; eauto.
        * intros k h i r K. apply pl. eapply Ps; eauto.
        * intros s x R. rewrite A4. apply in_app_iff in R as [R|[R|[]]].
          -- destruct (Ad s x R) as (n & D & ->). exists n. split; [|reflexivity]. rewrite gset_neq; [exact D|apply String.eqb_eq|]. intros ->. congruence.
          -- apply pair_inj in R as [R1 <-]. injection R1 as <-. exists (auto_name (m_next_string m)). split; [|reflexivity]. apply gset_eq. apply String.eqb_eq.
        * intros a b. rewrite A3, A4, (gset String.eqb String.eqb_eq). destruct (String.eqb_spec a t) as [->|Na].
          -- intro X. apply some_inj in X. subst b. split; [exists (m_next_string m); split; [lia|reflexivity]|]. rewrite A5. apply gset_eq. apply String.eqb_eq.
          -- intro X. destruct (Nm a b X) as ((k & L & ->) & D). split; [exists k; split; [lia|reflexivity]|]. now apply mono.
        * intros a b. rewrite A3, A5, (gset String.eqb String.eqb_eq). destruct (String.eqb_spec a (auto_name (m_next_string m))) as [->|Na].
          -- intros _. left. exists (m_next_string m). split; [lia|reflexivity].
          -- intro X. destruct (Df a b X) as [(k & L & ->)|[u Q]]; [left; exists k; split; [lia|reflexivity]|right; exists u; now apply named_ops].
        * intros a b x R r X. apply in_app_iff in R as [R|[R|[]]]; [|discriminate]. destruct (Ow a b x R r X) as [Q1 Q2]. split; [exact Q1|now apply mono].
    - cbn [of_op] in O. unfold add in H. destruct (handle_text m n t) as [m1 ok] eqn:HT.
      apply handle_spec in HT as (A1 & A2 & A3 & A4 & A5). apply pair_inj in H as [<- <-].
      assert (mono : forall a b, dget (m_default m) a = Some b -> dget (m_default m1) a = Some b).
      { intros a b X. destruct ok; [destruct A5 as [F ->]|destruct A5 as [-> _]; exact X]. rewrite gset_neq; [exact X|apply String.eqb_eq|]. intros ->. congruence. }
      assert (back : forall a b, dget (m_default m1) a = Some b -> dget (m_default m) a = Some b \/ (a = n /\ b = t)).
      { intros a b. destruct ok; [destruct A5 as [F ->]|destruct A5 as [-> _]; auto]. rewrite (gset String.eqb String.eqb_eq).
        destruct (String.eqb_spec a n) as [->|Na]; [|auto]. intro X. apply some_inj in X. auto. }
      constructor; rewrite ?A1, ?A2; try assumption.
      * intros r x R. apply in_app_iff in R as [R|[R|[]]]; [now apply Gt|discriminate].
      * intros r x R. apply in_app_iff in R as [R|[R|[]]]; [now apply Pt|discriminate].
      * intros k h i r K. apply gl. eapply Gs; eauto.
      * intros k h i r K. apply pl. eapply Ps; eauto.
      * intros s x R. rewrite A4. apply in_app_iff in R as [R|[R|[]]]; [now apply Ad|discriminate].
      * intros a b X. rewrite A3, A4 in *. destruct (Nm a b X) as [Q D]. split; [exact Q|now apply mono].
      * intros a b X. rewrite A3. destruct (back a b X) as [X'|[-> ->]].
        -- destruct (Df a b X') as [Q|[u Q]]; [now left|right; exists u; now apply named_ops].
        -- right. exists t. rewrite map_fst_app. apply in_or_app. right. now left.
      * intros a b x R r X. apply in_app_iff in R as [R|[R|[]]].
        -- destruct (Ow a b x R r X) as [Q1 Q2]. split; [exact Q1|now apply mono].
        -- apply pair_inj in R as [R1 R2]. injection R1 as <- <-. subst x. destruct ok; [|discriminate]. injection X as <-. split; [reflexivity|].
           destruct A5 as [_ ->]. apply gset_eq. apply String.eqb_eq.
    - rewrite reg_global in H. destruct (reg 0 (m_globals m) r) as [t' i] eqn:R. apply pair_inj in H as [<- <-].
      destruct (reg_spec _ _ _ _ _ G R) as (T' & [l L] & (k0 & r0 & K0 & _) & C).
      constructor; cbn [m_globals m_persistents m_default m_next_string m_named]; try assumption.
      + intros s x X. apply in_app_iff in X as [X|[X|[]]].
        * destruct (Gt s x X) as (j & k & r1 & -> & K). exists j, k, r1. split; [reflexivity|]. rewrite L. apply nth_error_app1 with (l' := l) in K as K2 || idtac.
          rewrite nth_error_app1; [exact K|]. apply nth_error_Some. congruence.
        * apply pair_inj in X as [X1 <-]. injection X1 as <-. exists i, k0, r0. auto.
      + intros s x X. apply in_app_iff in X as [X|[X|[]]]; [now apply Pt|discriminate].
      + intros k h j s K. destruct (C _ _ _ _ K) as [K'| ->]; [apply gl; eapply Gs; eauto|]. rewrite map_fst_app. unfold globals_of. rewrite flat_map_app.
        apply in_or_app. right. now left.
      + intros k h j s K. apply pl. eapply Ps; eauto.
      + intros s x X. apply in_app_iff in X as [X|[X|[]]]; [now apply Ad|discriminate].
      + intros a b X. destruct (Df a b X) as [Q|[u Q]]; [now left|right; exists u; now apply named_ops].
      + intros a b x X. apply in_app_iff in X as [X|[X|[]]]; [now apply Ow|discriminate].
    - rewrite reg_persistent in H. destruct (reg 56320 (m_persistents m) r) as [t' i] eqn:R. apply pair_inj in H as [<- <-].
      destruct (reg_spec _ _ _ _ _ P R) as (T' & [l L] & (k0 & r0 & K0 & _) & C).
      constructor; cbn [m_globals m_persistents m_default m_next_string m_named]; try assumption.
      + intros s x X. apply in_app_iff in X as [X|[X|[]]]; [now apply Gt|discriminate].
      + intros s x X. apply in_app_iff in X as [X|[X|[]]].
        * destruct (Pt s x X) as (j & k & r1 & -> & K). exists j, k, r1. split; [reflexivity|]. rewrite L.
          rewrite nth_error_app1; [exact K|]. apply nth_error_Some. congruence.
        * apply pair_inj in X as [X1 <-]. injection X1 as <-. exists i, k0, r0. auto.
      + intros k h j s K. apply gl. eapply Gs; eauto.
      + intros k h j s K. destruct (C _ _ _ _ K) as [K'| ->]; [apply pl; eapply Ps; eauto|]. rewrite map_fst_app. unfold persistents_of. rewrite flat_map_app.
        apply in_or_app. right. now left.
      + intros s x X. apply in_app_iff in X as [X|[X|[]]]; [now apply Ad|discriminate].
      + intros a b X. destruct (Df a b X) as [Q|[u Q]]; [now left|right; exists u; now apply named_ops].
      + intros a b x X. apply in_app_iff in X as [X|[X|[]]]; [now apply Ow|discriminate].
  Qed.
  Lemma srun_fst : forall ops m, map fst (snd (srun hname m ops)) = ops.
  Proof.
    induction ops as [|o ops IH]; intro m; [reflexivity|]. cbn [srun]. destruct (sstep hname m o) as [m1 x]. specialize (IH m1).
    destruct (srun hname m1 ops) as [m2 tr]. cbn in *. now rewrite IH.
  Qed.
  Lemma minv_run : forall ops m tr, minv m tr -> own_names (map fst tr ++ ops) ->
    let '(m', tr') := srun hname m ops in minv m' (tr ++ tr').
  Proof.
    induction ops as [|o ops IH]; intros m tr I U; cbn [srun]; [now rewrite app_nil_r|].
    destruct (sstep hname m o) as [m1 x] eqn:S.
    assert (I1 : minv m1 (tr ++ [(o, x)])).
    { apply (minv_step m tr o m1 x I); [|intros t n Q k; apply (U t); apply in_or_app; now left|exact S].
      destruct o; cbn; auto. intro k. apply (U t). apply in_or_app. right. now left. }
    specialize (IH m1 _ I1). rewrite map_fst_app, <- app_assoc in IH. specialize (IH U).
    destruct (srun hname m1 ops) as [m2 tr2]. rewrite <- app_assoc in IH. exact IH.
  Qed.
  Lemma minv_new : minv new_smgr [].
  Proof.
    constructor; cbn; try (intros; contradiction); try (intros k h i r K; destruct k; discriminate); try discriminate.
    - split; [constructor|intros k h i r K; destruct k; discriminate].
    - split; [constructor|intros k h i r K; destruct k; discriminate].
  Qed.
  Lemma minv_ops : forall ops m tr, own_names ops -> srun hname new_smgr ops = (m, tr) -> minv m tr /\ map fst tr = ops.
  Proof.
    intros ops m tr U R. pose proof (minv_run ops new_smgr [] minv_new U) as I. pose proof (srun_fst ops new_smgr) as F. rewrite R in *. auto.
  Qed.
End Inv.

(** ** Emission *)
Lemma tab_bound : forall base t l, tab_ok base t -> (forall k h i r, nth_error t k = Some (h, (i, r)) -> In r l) ->
  len t <= hashes l.
Proof.
  intros base t l [N T] H. unfold hashes, len. rewrite <- (map_length fst t). apply Nat2Z.inj_le. apply NoDup_incl_length; [exact N|].
  intros h Hh. apply nodup_In. apply in_map_iff in Hh as ([h' [i r]] & <- & I). apply In_nth_error in I as [k K].
  destruct (T _ _ _ _ K) as [_ <-]. cbn [fst]. apply in_map. eapply H; eauto.
Qed.
Lemma definitions_app : forall a b id, definitions (a ++ b) id = definitions a id ++ definitions b id.
Proof. intros. unfold definitions. now rewrite filter_app, map_app. Qed.
Section Emit.
  Variable render : list (string * string) -> expr -> option (list (Z * bytes)).
  Variable m : smgr.
  Lemma ref_defs : forall r ofs l, ref_actions render m r ofs = Some l -> exists p, render (m_default m) (string_expr r) = Some p /\
    (forall id, definitions l id = if ofs =? id then map (fun e => (fst e, [snd e])) p else []).
  Proof.
    intros r ofs l H. unfold ref_actions in H. destruct (render (m_default m) (string_expr r)) as [p|]; [|discriminate]. cbn [bind] in H.
    destruct (action4_ctor _); [|discriminate]. apply some_inj in H. subst l. exists p. split; [reflexivity|]. intro id. unfold definitions.
    induction p as [|[a b] p IH]; cbn [map filter]; [destruct (ofs =? id); reflexivity|]. cbn [a4_generic a4_offset andb] in *.
    destruct (ofs =? id); cbn [map]; [|exact IH]. rewrite IH. reflexivity.
  Qed.
  Lemma all_defs : forall base b t, tab_ok base t -> (forall k h i r, nth_error t k = Some (h, (i, r)) -> render (m_default m) (string_expr r) <> None) ->
    0 <= b + base -> b + base + len t <= 65536 ->
    exists l, all_actions render m b t = Some l /\
      (forall k h i r, nth_error t k = Some (h, (i, r)) -> exists p, render (m_default m) (string_expr r) = Some p /\
         definitions l (b + i) = map (fun e => (fst e, [snd e])) p) /\
      (forall id, ~ (b + base <= id < b + base + len t) -> definitions l id = []).
  Proof.
    intros base b t. revert base. induction t as [|[h [i r]] t IH]; intros base [N T] Rn B1 B2; cbn [all_actions].
    - exists []. split; [reflexivity|]. split; [intros k; destruct k; discriminate|reflexivity].
    - destruct (T 0%nat h i r eq_refl) as [Hi Hh]. unfold len in B2. cbn [List.length] in B2.
      assert (E : exists l, ref_actions render m r (b + i) = Some l).
      { unfold ref_actions. specialize (Rn 0%nat h i r eq_refl). destruct (render (m_default m) (string_expr r)); [|congruence]. cbn [bind].
        unfold action4_ctor. cbn [a4_feature a4_generic a4_offset]. rewrite orb_true_r. rewrite (proj2 (Z.leb_le 0 (b + i))), (proj2 (Z.leb_le (b + i) 65535)) by lia. cbn [andb]. eauto. }
      destruct E as [l1 E1]. rewrite E1. cbn [bind].
      destruct (IH (base + 1)) as (l2 & E2 & D2 & F2).
      + cbn [map fst] in N. inversion N; subst. split; [assumption|]. intros k h' i' r' K. destruct (T (S k) h' i' r' K) as [-> ->]. split; [lia|reflexivity].
      + intros k h' i' r' K. exact (Rn (S k) h' i' r' K).
      + lia.
      + unfold len. lia.
      + rewrite E2. cbn [bind]. exists (l1 ++ l2). split; [reflexivity|]. destruct (ref_defs r (b + i) l1 E1) as (p & P & D1). split.
        * intros k h' i' r' K. destruct k as [|k]; cbn [nth_error] in K.
          -- apply some_inj in K. injection K as <- <- <-. exists p. split; [exact P|]. rewrite definitions_app, D1, Z.eqb_refl, F2 by lia. now rewrite app_nil_r.
          -- destruct (D2 k h' i' r' K) as (q & Q & D). exists q. split; [exact Q|]. rewrite definitions_app, D1, D.
             destruct (T (S k) h' i' r' K) as [Hi' _]. destruct (Z.eqb_spec (b + i) (b + i')); [lia|reflexivity].
        * intros id Hid. unfold len in Hid. cbn [List.length] in Hid. rewrite definitions_app, D1, F2 by (unfold len; lia).
          destruct (Z.eqb_spec (b + i) id); [lia|reflexivity].
  Qed.
End Emit.

Lemma strings_spec : forall hname render ops m tr, own_names ops -> srun hname new_smgr ops = (m, tr) ->
  no_collision (globals_of ops) -> no_collision (persistents_of ops) ->
  hashes (globals_of ops) <= 3072 -> hashes (persistents_of ops) <= 9216 ->
  (forall r, In r (globals_of ops ++ persistents_of ops) -> render (m_default m) (string_expr r) <> None) ->
  exists pa ga, get_persistent_actions render m = Some pa /\ get_actions render m = Some ga /\
  (forall r x, In (OGlobal r, x) tr -> exists i p, x = RId i /\ 0 <= i < 3072 /\ render (m_default m) (string_expr r) = Some p /\
     definitions (pa ++ ga) (53248 + i) = map (fun e => (fst e, [snd e])) p) /\
  (forall r x, In (OPersistent r, x) tr -> exists i p, x = RId i /\ 56320 <= i < 65536 /\ render (m_default m) (string_expr r) = Some p /\
     definitions (pa ++ ga) i = map (fun e => (fst e, [snd e])) p).
Proof.
  intros hname render ops m tr U R CG CP SG SP T. destruct (minv_ops hname ops m tr U R) as [I F]. destruct I as [G P Gt Pt Gs Ps _ _ _ _].
  rewrite F in *.
  pose proof (tab_bound _ _ _ G Gs) as LG. pose proof (tab_bound _ _ _ P Ps) as LP. unfold len in LG, LP.
  destruct (all_defs render m 0 53248 (m_globals m) G) as (ga & EG & DG & FG).
  { intros k h i r K. apply T. apply in_or_app. left. eapply Gs; eauto. } { lia. } { unfold len. lia. }
  destruct (all_defs render m 56320 0 (m_persistents m) P) as (pa & EP & DP & FP).
  { intros k h i r K. apply T. apply in_or_app. right. eapply Ps; eauto. } { lia. } { unfold len. lia. }
  exists pa, ga. split; [exact EP|]. split; [exact EG|].
  assert (inG : forall r x, In (OGlobal r, x) tr -> In r (globals_of ops)).
  { intros r x X. rewrite <- F. apply (in_map fst) in X. cbn in X. unfold globals_of. apply in_flat_map. exists (OGlobal r). split; [exact X|now left]. }
  assert (inP : forall r x, In (OPersistent r, x) tr -> In r (persistents_of ops)).
  { intros r x X. rewrite <- F. apply (in_map fst) in X. cbn in X. unfold persistents_of. apply in_flat_map. exists (OPersistent r). split; [exact X|now left]. }
  split.
  - intros r x X. destruct (Gt r x X) as (i & k & r0 & -> & K). destruct (DG k _ i r0 K) as (p & Pp & D). exists i, p. split; [reflexivity|].
    destruct (proj2 G _ _ _ _ K) as [Hi Hh]. assert (k < List.length (m_globals m))%nat by (apply nth_error_Some; congruence).
    split; [lia|]. split.
    + rewrite <- Pp. f_equal. apply CG; [now apply (inG r (RId i))|eapply Gs; eauto|congruence].
    + rewrite definitions_app, FP, D by lia. reflexivity.
  - intros r x X. destruct (Pt r x X) as (i & k & r0 & -> & K). destruct (DP k _ i r0 K) as (p & Pp & D). exists i, p. split; [reflexivity|].
    destruct (proj2 P _ _ _ _ K) as [Hi Hh]. assert (k < List.length (m_persistents m))%nat by (apply nth_error_Some; congruence).
    split; [lia|]. split.
    + rewrite <- Pp. f_equal. apply CP; [now apply (inP r (RId i))|eapply Ps; eauto|congruence].
    + rewrite definitions_app. rewrite (FG i) by (unfold len; lia). rewrite app_nil_r. exact D.
Qed.

Lemma ids_equal : forall hname ops m tr, own_names ops -> srun hname new_smgr ops = (m, tr) ->
  (forall r s i j, In (OGlobal r, RId i) tr -> In (OGlobal s, RId j) tr -> (i = j <-> r_hash r = r_hash s)) /\
  (forall r s i j, In (OPersistent r, RId i) tr -> In (OPersistent s, RId j) tr -> (i = j <-> r_hash r = r_hash s)).
Proof.
  intros hname ops m tr U R. destruct (minv_ops hname ops m tr U R) as [[G P Gt Pt _ _ _ _ _ _] _].
  assert (W : forall base t, tab_ok base t -> forall a b i j ka kb ra rb, nth_error t ka = Some (a, (i, ra)) -> nth_error t kb = Some (b, (j, rb)) -> (i = j <-> a = b)).
  { intros base t [N T] a b i j ka kb ra rb A B. destruct (T _ _ _ _ A) as [-> _]. destruct (T _ _ _ _ B) as [-> _]. split.
    - intro Q. assert (ka = kb) by lia. subst kb. congruence.
    - intros ->. now rewrite (tab_key_pos _ _ _ _ _ _ N A B). }
  split; intros r s i j A B.
  - destruct (Gt r _ A) as (i' & ka & ra & E & Ka). injection E as <-. destruct (Gt s _ B) as (j' & kb & rb & E & Kb). injection E as <-. exact (W _ _ G _ _ _ _ _ _ _ _ Ka Kb).
  - destruct (Pt r _ A) as (i' & ka & ra & E & Ka). injection E as <-. destruct (Pt s _ B) as (j' & kb & rb & E & Kb). injection E as <-. exact (W _ _ P _ _ _ _ _ _ _ _ Ka Kb).
Qed.

Lemma add_spec : forall hname ops m tr, own_names ops -> srun hname new_smgr ops = (m, tr) ->
  (forall t x, In (OAdd t, x) tr -> exists n, x = RRef (mkRef (EIdent n) (hname n)) /\ dict_get String.eqb (m_default m) n = Some t) /\
  (forall t u n, In (OAdd t, RRef (mkRef (EIdent n) (hname n))) tr -> In (OAdd u, RRef (mkRef (EIdent n) (hname n))) tr -> t = u) /\
  (forall t n a b, In (OAdd t, RRef (mkRef (EIdent n) a)) tr -> In (OAdd t, b) tr -> b = RRef (mkRef (EIdent n) a)) /\
  (forall t n r, In (ONamed t n, RRef r) tr -> r = mkRef (EIdent n) (hname n) /\ dict_get String.eqb (m_default m) n = Some t).
Proof.
  intros hname ops m tr U R. destruct (minv_ops hname ops m tr U R) as [[_ _ _ _ _ _ Ad Nm _ Ow] _]. split; [|split; [|split]].
  - intros t x X. destruct (Ad t x X) as (n & D & ->). exists n. split; [reflexivity|]. now apply Nm in D.
  - intros t u n A B. destruct (Ad t _ A) as (n1 & D1 & E1). destruct (Ad u _ B) as (n2 & D2 & E2). injection E1 as <- _. injection E2 as <- _.
    apply Nm in D1 as [_ D1]. apply Nm in D2 as [_ D2]. congruence.
  - intros t n a b A B. destruct (Ad t _ A) as (n1 & D1 & E1). destruct (Ad t _ B) as (n2 & D2 & ->). injection E1 as -> ->. unfold name_ref. congruence.
  - intros t n r A. exact (Ow t n _ A r eq_refl).
Qed.

(** ** grf_compile_string *)
Lemma utf8_ok : forall c b, utf8 c = Some b <-> utf8_of c b.
Proof.
  intros c b. unfold utf8. split.
  - destruct (Z.ltb_spec c 0); [discriminate|]. destruct (Z.ltb_spec c 128).
    { intro EE. apply some_inj in EE. subst. now constructor. }
    destruct (Z.ltb_spec c 2048).
    { intro EE. apply some_inj in EE. subst. replace c with (64 * (c / 64) + c mod 64) at 1 by (pose proof (Z.div_mod c 64); lia).
      constructor; [|apply Z.mod_pos_bound; lia]. split; [apply Z.div_le_lower_bound; lia|apply Z.div_lt_upper_bound; lia]. }
    destruct ((55296 <=? c) && (c <? 57344)) eqn:S; [discriminate|].
    assert (D2 : c / 64 = 64 * (c / 4096) + c / 64 mod 64).
    { replace 4096 with (64 * 64) by reflexivity. rewrite <- Z.div_div by lia. pose proof (Z.div_mod (c / 64) 64). lia. }
    pose proof (Z.div_mod c 64 ltac:(lia)) as D1. pose proof (Z.mod_pos_bound c 64 ltac:(lia)). pose proof (Z.mod_pos_bound (c / 64) 64 ltac:(lia)).
    destruct (Z.ltb_spec c 65536).
    { intro EE. apply some_inj in EE. subst.
      assert (Q : c = 4096 * (c / 4096) + 64 * (c / 64 mod 64) + c mod 64) by lia.
      rewrite Q at 1. apply andb_false_iff in S. constructor; lia. }
    destruct (Z.ltb_spec c 1114112); [|discriminate]. intro EE. apply some_inj in EE. subst.
    assert (D3 : c / 4096 = 64 * (c / 262144) + c / 4096 mod 64).
    { replace 262144 with (4096 * 64) by reflexivity. rewrite <- Z.div_div by lia. pose proof (Z.div_mod (c / 4096) 64). lia. }
    pose proof (Z.mod_pos_bound (c / 4096) 64 ltac:(lia)).
    assert (Q : c = 262144 * (c / 262144) + 4096 * (c / 4096 mod 64) + 64 * (c / 64 mod 64) + c mod 64) by lia.
    rewrite Q at 1. constructor; lia.
  - assert (M : forall q x, 0 <= x < 64 -> (64 * q + x) / 64 = q /\ (64 * q + x) mod 64 = x).
    { intros q x Hx. split; [symmetry; apply (Z.div_unique _ _ q x); lia|symmetry; apply (Z.mod_unique _ _ q x); lia]. }
    intro H. destruct H as [c H|h l Hh Hl|h m l Hh Hm Hl Hlow Hs|g h m l Hg Hh Hm Hl Hr].
    + destruct (Z.ltb_spec c 0); [lia|]. destruct (Z.ltb_spec c 128); [reflexivity|lia].
    + destruct (Z.ltb_spec (64 * h + l) 0); [lia|]. destruct (Z.ltb_spec (64 * h + l) 128); [lia|]. destruct (Z.ltb_spec (64 * h + l) 2048); [|lia].
      destruct (M h l Hl) as [-> ->]. reflexivity.
    + set (c := 4096 * h + 64 * m + l) in *. destruct (Z.ltb_spec c 0); [lia|]. destruct (Z.ltb_spec c 128); [lia|]. destruct (Z.ltb_spec c 2048); [lia|].
      destruct ((55296 <=? c) && (c <? 57344)) eqn:S; [apply andb_true_iff in S as [S1 S2]; apply Z.leb_le in S1; apply Z.ltb_lt in S2; lia|].
      destruct (Z.ltb_spec c 65536); [|lia].
      assert (E1 : c = 64 * (64 * h + m) + l) by (unfold c; lia).
      assert (E2 : c / 64 = 64 * h + m /\ c mod 64 = l) by (rewrite E1; apply M; lia). destruct E2 as [E2 E3].
      assert (E4 : c / 4096 = h). { replace 4096 with (64 * 64) by reflexivity. rewrite <- Z.div_div by lia. rewrite E2. apply M; lia. }
      rewrite E4, E2, E3. destruct (M h m Hm) as [_ ->]. reflexivity.
    + set (c := 262144 * g + 4096 * h + 64 * m + l) in *. destruct (Z.ltb_spec c 0); [lia|]. destruct (Z.ltb_spec c 128); [lia|]. destruct (Z.ltb_spec c 2048); [lia|].
      destruct ((55296 <=? c) && (c <? 57344)) eqn:S; [apply andb_true_iff in S as [S1 S2]; apply Z.leb_le in S1; apply Z.ltb_lt in S2; lia|].
      destruct (Z.ltb_spec c 65536); [lia|]. destruct (Z.ltb_spec c 1114112); [|lia].
      assert (E1 : c = 64 * (64 * (64 * g + h) + m) + l) by (unfold c; lia).
      assert (E2 : c / 64 = 64 * (64 * g + h) + m /\ c mod 64 = l) by (rewrite E1; apply M; lia). destruct E2 as [E2 E3].
      assert (E4 : c / 4096 = 64 * g + h). { replace 4096 with (64 * 64) by reflexivity. rewrite <- Z.div_div by lia. rewrite E2. apply M; lia. }
      assert (E5 : c / 262144 = g). { replace 262144 with (4096 * 64) by reflexivity. rewrite <- Z.div_div by lia. rewrite E4. apply M; lia. }
      rewrite E5, E4, E2, E3. destruct (M g h Hh) as [_ ->]. destruct (M (64 * g + h) m Hm) as [_ ->]. reflexivity.
Qed.
Lemma hex_ok : forall c d, hex_digit c = Some d <-> hexval c d.
Proof.
  intros c d. unfold hex_digit. split.
  - destruct ((48 <=? c) && (c <=? 57)) eqn:A.
    { apply andb_true_iff in A as [A1 A2]. apply Z.leb_le in A1, A2. intro H. apply some_inj in H. subst d. replace c with (48 + (c - 48)) at 1 by lia. constructor. lia. }
    destruct ((65 <=? c) && (c <=? 70)) eqn:B.
    { apply andb_true_iff in B as [B1 B2]. apply Z.leb_le in B1, B2. intro H. apply some_inj in H. subst d. replace c with (55 + (c - 55)) at 1 by lia. constructor. lia. }
    destruct ((97 <=? c) && (c <=? 102)) eqn:C; [|discriminate].
    apply andb_true_iff in C as [C1 C2]. apply Z.leb_le in C1, C2. intro H. apply some_inj in H. subst d. replace c with (87 + (c - 87)) at 1 by lia. constructor. lia.
  - intros [d' H|d' H|d' H].
    + rewrite (proj2 (Z.leb_le 48 (48 + d'))), (proj2 (Z.leb_le (48 + d') 57)) by lia. cbn [andb]. f_equal. lia.
    + rewrite (proj2 (Z.leb_gt (55 + d') 57)) by lia. rewrite andb_false_r. rewrite (proj2 (Z.leb_le 65 (55 + d'))), (proj2 (Z.leb_le (55 + d') 70)) by lia. cbn [andb]. f_equal. lia.
    + rewrite (proj2 (Z.leb_gt (87 + d') 57)), (proj2 (Z.leb_gt (87 + d') 70)) by lia. rewrite !andb_false_r.
      rewrite (proj2 (Z.leb_le 97 (87 + d'))), (proj2 (Z.leb_le (87 + d') 102)) by lia. cbn [andb]. f_equal. lia.
Qed.
Lemma hexval_range : forall c d, hexval c d -> 0 <= d < 16 /\ c <> 92 /\ c <> 34 /\ c <> 85.
Proof. intros c d [d' H|d' H|d' H]; lia. Qed.
Lemma int2 : forall a b va vb, hexval a va -> hexval b vb -> int16 [a; b] = Some (16 * va + vb).
Proof.
  intros a b va vb A B. unfold int16, hex_int. rewrite (proj2 (hex_ok _ _) A). cbn [bind]. rewrite (proj2 (hex_ok _ _) B). cbn [bind]. f_equal; lia.
Qed.
Lemma int4 : forall a b c d va vb vc vd, hexval a va -> hexval b vb -> hexval c vc -> hexval d vd ->
  int16 [a; b; c; d] = Some (4096 * va + 256 * vb + 16 * vc + vd).
Proof.
  intros a b c d va vb vc vd A B C D. unfold int16, hex_int. rewrite (proj2 (hex_ok _ _) A). cbn [bind]. rewrite (proj2 (hex_ok _ _) B). cbn [bind].
  rewrite (proj2 (hex_ok _ _) C). cbn [bind]. rewrite (proj2 (hex_ok _ _) D). cbn [bind]. f_equal; lia.
Qed.
Lemma compile_fwd : forall ps b, pieces_bytes ps b -> forall fuel, (List.length (flat_map piece_src ps) < fuel)%nat ->
  compile_loop fuel (flat_map piece_src ps) = Some b.
Proof.
  intros ps b H. induction H as [|p l b c P _ IH]; intros fuel F.
  - destruct fuel; [lia|]. reflexivity.
  - cbn [flat_map] in *. rewrite app_length in F. destruct fuel as [|fuel]; [lia|].
    destruct P as [x u N U|x X|x1 x2 x3 x4 v1 v2 v3 v4 u H1 H2 H3 H4 U|x1 x2 v1 v2 H1 H2]; cbn [piece_src List.app] in *; cbn [List.length] in F.
    + cbn [compile_loop]. rewrite (proj2 (Z.eqb_neq x 92) N). rewrite (proj2 (utf8_ok _ _) U). cbn [bind]. rewrite IH by lia. reflexivity.
    + cbn [compile_loop]. change (92 =? 92) with true. cbn iota. replace ((x =? 92) || (x =? 34)) with true by (destruct X as [->| ->]; reflexivity).
      replace (utf8 x) with (Some [x]) by (destruct X as [->| ->]; reflexivity). cbn [bind]. rewrite IH by lia. reflexivity.
    + cbn [compile_loop]. change (92 =? 92) with true. change ((85 =? 92) || (85 =? 34)) with false. change (85 =? 85) with true. cbn iota.
      cbn [firstn skipn]. rewrite (int4 _ _ _ _ _ _ _ _ H1 H2 H3 H4). cbn [bind]. rewrite (proj2 (utf8_ok _ _) U). cbn [bind]. rewrite IH by lia. reflexivity.
    + cbn [compile_loop]. change (92 =? 92) with true. cbn iota. destruct (hexval_range _ _ H1) as (R1 & N1 & N2 & N3). destruct (hexval_range _ _ H2) as (R2 & _).
      rewrite (proj2 (Z.eqb_neq x1 92) N1), (proj2 (Z.eqb_neq x1 34) N2), (proj2 (Z.eqb_neq x1 85) N3). cbn [orb firstn skipn].
      rewrite (int2 _ _ _ _ H1 H2). cbn [bind]. unfold mk_bytes, bytesb, byteb. cbn [forallb].
      rewrite (proj2 (Z.leb_le 0 (16 * v1 + v2))), (proj2 (Z.ltb_lt (16 * v1 + v2) 256)) by lia. cbn [andb bind]. rewrite IH by lia. reflexivity.
Qed.
