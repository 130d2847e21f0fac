(** Proofs for C28 and C29. *)
From Coq Require Import ZArith List Bool Lia ZifyBool.
From Verif Require Import Base BaseFacts RecordsModel RefsModel RefsProofs SchedModel SpecSched SchedProofs ContainerModel SpecContainer.
Import ListNotations.
Open Scope Z_scope.

Lemma pack_I_dword : forall v b, pack_I v = Some b -> 0 <= v < 4294967296 /\ b = dword v.
Proof.
  intros v b H. apply pack_I_inv in H as [R ->]. split; [exact R|]. unfold dword. rewrite (Z.mod_small (v / 16777216)); [reflexivity|].
  split; [apply Z.div_pos; lia|apply Z.div_lt_upper_bound; lia].
Qed.
Lemma pack_I_dword_ok : forall v, 0 <= v < 4294967296 -> pack_I v = Some (dword v).
Proof.
  intros v R. unfold pack_I. replace ((0 <=? v) && (v <? 4294967296)) with true by lia. unfold dword.
  rewrite (Z.mod_small (v / 16777216)); [reflexivity|]. split; [apply Z.div_pos; lia|apply Z.div_lt_upper_bound; lia].
Qed.
Lemma rd_dword : forall v r, 0 <= v < 4294967296 -> rd_I (dword v ++ r) = Some (v, r).
Proof. intros v r R. apply rd_I_pack. now apply pack_I_dword_ok. Qed.
Lemma dword_length : forall v, length (dword v) = 4%nat.
Proof. reflexivity. Qed.
Lemma take_app : forall d r, rd_take (length d) (d ++ r) = Some (d, r).
Proof.
  intros d r. unfold rd_take. rewrite app_length. replace (Nat.leb (length d) (length d + length r)) with true by (symmetry; apply Nat.leb_le; lia).
  now rewrite firstn_app, skipn_app, Nat.sub_diag, firstn_all, skipn_all, app_nil_r.
Qed.
Lemma take_len : forall d r, rd_take (Z.to_nat (len d)) (d ++ r) = Some (d, r).
Proof. intros d r. unfold len. rewrite Nat2Z.id. apply take_app. Qed.

Lemma patch_app : forall pre old post v, length old = length v ->
  patch (pre ++ old ++ post) (length pre) v = pre ++ v ++ post.
Proof.
  intros pre old post v E. unfold patch.
  rewrite firstn_app, Nat.sub_diag, firstn_all. cbn [firstn]. rewrite app_nil_r. f_equal. f_equal.
  rewrite skipn_app, skipn_all2 by lia. cbn [app]. replace (length pre + length v - length pre)%nat with (length old) by lia.
  rewrite skipn_app, skipn_all, Nat.sub_diag. reflexivity.
Qed.

(** ** The bytes of the two sections *)
Definition enc1 (p : Z * bytes) : bytes := dword (len (snd p)) ++ fst p :: snd p.
Definition enc (l : list (Z * bytes)) : bytes := flat_map enc1 l.
Definition encR1 (p : Z * bytes) : bytes := dword (fst p) ++ dword (len (snd p)) ++ snd p.
Definition encR (l : list (Z * bytes)) : bytes := flat_map encR1 l.

Lemma enc1_length : forall p, length (enc1 p) = (5 + length (snd p))%nat.
Proof. intros [t d]. unfold enc1. rewrite app_length, dword_length. reflexivity. Qed.

Lemma encR1_length : forall p, length (encR1 p) = (8 + length (snd p))%nat.
Proof. intros [t d]. unfold encR1. rewrite !app_length, !dword_length. cbn [snd]. lia. Qed.

Lemma read_pseudos_enc : forall l fuel r, (length l < fuel)%nat ->
  Forall (fun p => snd p <> [] /\ len (snd p) < 4294967296) l ->
  read_pseudos fuel (enc l ++ [0; 0; 0; 0] ++ r) = Some (l, r).
Proof.
  induction l as [|[t d] l IH]; intros fuel r Hf H; (destruct fuel as [|fuel]; [cbn in Hf; lia|]); cbn [read_pseudos].
  - cbn [enc flat_map]. change ([] ++ [0; 0; 0; 0] ++ r) with (dword 0 ++ r). rewrite rd_dword by lia. reflexivity.
  - inversion H as [|? ? [H1 H2] H3]; subst. cbn [snd] in *. cbn [enc flat_map]. unfold enc1 at 1. cbn [fst snd].
    rewrite <- !app_assoc. cbn [app]. rewrite rd_dword by (unfold len in *; lia). cbn [bind].
    replace (len d =? 0) with false by (unfold len; destruct d; [congruence|cbn [length]; lia]).
    cbn [rd_B bind]. rewrite take_len. cbn [bind]. fold (enc l). change (0 :: 0 :: 0 :: 0 :: r) with ([0; 0; 0; 0] ++ r). rewrite IH; [reflexivity|cbn in Hf; lia|exact H3].
Qed.
Lemma read_reals_enc : forall l fuel r, (length l < fuel)%nat ->
  Forall (fun p => 0 < fst p < 4294967296 /\ len (snd p) < 4294967296) l ->
  read_reals fuel (encR l ++ [0; 0; 0; 0] ++ r) = Some (l, r).
Proof.
  induction l as [|[t d] l IH]; intros fuel r Hf H; (destruct fuel as [|fuel]; [cbn in Hf; lia|]); cbn [read_reals].
  - cbn [encR flat_map]. change ([] ++ [0; 0; 0; 0] ++ r) with (dword 0 ++ r). rewrite rd_dword by lia. reflexivity.
  - inversion H as [|? ? [H1 H2] H3]; subst. cbn [fst snd] in *. cbn [encR flat_map]. unfold encR1 at 1. cbn [fst snd].
    rewrite <- !app_assoc. rewrite rd_dword by lia. cbn [bind]. replace (t =? 0) with false by lia.
    rewrite rd_dword by (unfold len in *; lia). cbn [bind]. rewrite take_len. cbn [bind]. fold (encR l). rewrite IH; [reflexivity|cbn in Hf; lia|exact H3].
Qed.

Lemma dget_set : forall {V} (l : list (Z * V)) k v x, dict_get Z.eqb (dict_set Z.eqb l k v) x = if x =? k then Some v else dict_get Z.eqb l x.
Proof.
  intros V. induction l as [|[k' v'] l IH]; intros k v x; cbn [dict_set dict_get].
  - reflexivity.
  - destruct (k =? k') eqn:E; cbn [dict_get].
    + apply Z.eqb_eq in E. subst k'. destruct (x =? k); reflexivity.
    + rewrite IH. destruct (x =? k') eqn:E2; [|reflexivity]. replace (x =? k) with false by lia. reflexivity.
Qed.
Lemma dget_In : forall {V} (l : list (Z * V)) k v, dict_get Z.eqb l k = Some v -> In (k, v) l.
Proof.
  intros V. induction l as [|[k' v'] l IH]; intros k v H; cbn [dict_get] in H; [discriminate|].
  destruct (k =? k') eqn:E; [apply Z.eqb_eq in E; apply some_inj in H; subst; now left|right; now apply IH].
Qed.
Lemma dset_nodup : forall {V} (l : list (Z * V)) k v, NoDup (map fst l) -> NoDup (map fst (dict_set Z.eqb l k v)).
Proof.
  intros V. induction l as [|[k' v'] l IH]; intros k v N; cbn [dict_set map fst]; [repeat constructor; intros []|].
  cbn [map fst] in N. inversion N as [|? ? N1 N2]; subst. destruct (k =? k') eqn:E; cbn [map fst]; [now constructor|].
  constructor; [|now apply IH]. intro I. apply N1. apply in_map_iff in I as ([a b] & Ea & I). cbn in Ea. subst a.
  clear - I E. revert I. induction l as [|[c d] l IH]; cbn [dict_set]; [intros [Q|[]]; injection Q as -> ->; lia|].
  destruct (k =? c) eqn:E2; intros [Q|Q].
  - injection Q as -> ->. lia.
  - cbn. right. now apply (in_map fst) in Q.
  - injection Q as -> ->. now left.
  - cbn. right. now apply IH.
Qed.

Section W.
  Variable hash : list bytes -> Z.
  Variable res : aid -> bool.
  Variable pseudo : aid -> bytes.
  Variable data : aid -> list bytes.
  Variable ids : aid -> option Z.
  Notation img := (image res pseudo).

  Definition idd (s : aid) : Z := match ids s with Some v => v | None => 0 end.

  (** ** Pseudo sprites *)
  Fixpoint offs (base : nat) (l : list aid) (k : Z) : list nat :=
    match l with
    | [] => []
    | s :: r => (if res s && (idd s =? k) then [base + 5]%nat else []) ++ offs (base + length (enc1 (img idd s))) r k
    end.

  Lemma write_pseudos_spec : forall l b refs b' refs', write_pseudos res pseudo ids l b refs = Some (b', refs') ->
    b' = b ++ enc (map (img idd) l) /\
    (forall k, match dict_get Z.eqb refs' k with Some o => o | None => [] end =
               match dict_get Z.eqb refs k with Some o => o | None => [] end ++ offs (length b) l k) /\
    Forall (fun s => len (snd (img idd s)) < 4294967296) l /\
    Forall (fun s => res s = true -> exists v, ids s = Some v /\ 0 <= v < 4294967296) l.
  Proof.
    induction l as [|s l IH]; intros b refs b' refs' H; cbn [write_pseudos] in H.
    - apply some_inj, pair_inj in H as [<- <-]. cbn. rewrite app_nil_r. split; [reflexivity|]. split; [intro; now rewrite app_nil_r|]. now split.
    - assert (WP : forall d t b1 o, write_pseudo b d t = Some (b1, o) -> b1 = b ++ enc1 (t, d) /\ o = (length b + 5)%nat /\ len d < 4294967296).
      { intros d t b1 o W. unfold write_pseudo in W. bnd W h Hh. apply some_inj, pair_inj in W as [<- <-].
        cbn [concat_opt] in Hh. bnd Hh x Hx. bnd Hh y Hy. apply some_inj in Hh. subst h. bnd Hy z Hz. apply some_inj in Hy. subst y.
        apply pack_B_inv in Hz as [_ ->]. apply pack_I_dword in Hx as [R ->]. unfold enc1. cbn [fst snd].
        split; [now rewrite <- app_assoc|]. split; [rewrite !app_length, dword_length; cbn; lia|lia]. }
      cbn [map enc flat_map offs]. destruct (res s) eqn:R.
      + apply bind_some in H as [id [Hid H]]; cbv beta iota in H. bnd H d Hd. bnd H p Hp. destruct p as [b1 o]. apply pack_I_dword in Hd as [Rid ->].
        destruct (WP _ _ _ _ Hp) as (-> & -> & L).
        assert (EI : idd s = id) by (unfold idd; now rewrite Hid).
        assert (EM : img idd s = (253, dword id)) by (unfold image; now rewrite R, EI).
        destruct (IH _ _ _ _ H) as (-> & Hr & HF1 & HF2). rewrite EM. split; [now rewrite <- app_assoc|]. split; [|split].
        * intro k. rewrite Hr. unfold add_ref. rewrite dget_set. rewrite EI, Z.eqb_sym. cbn [andb].
          rewrite app_length. destruct (id =? k) eqn:E; [apply Z.eqb_eq in E; subst k; now rewrite <- app_assoc|reflexivity].
        * constructor; [rewrite EM; exact L|exact HF1].
        * constructor; [intros _; exists id; auto|exact HF2].
      + bnd H p Hp. destruct p as [b1 o]. destruct (WP _ _ _ _ Hp) as (-> & -> & L).
        assert (EM : img idd s = (255, pseudo s)) by (unfold image; now rewrite R).
        destruct (IH _ _ _ _ H) as (-> & Hr & HF1 & HF2). rewrite EM. split; [now rewrite <- app_assoc|]. split; [|split].
        * intro k. rewrite Hr. cbn [andb app]. now rewrite app_length.
        * constructor; [rewrite EM; exact L|exact HF1].
        * constructor; [intro Q; congruence|exact HF2].
  Qed.

  (** ** Patching *)
  Lemma patch_section : forall k v l tgt pre post,
    fold_left (fun b ofs => patch b ofs (dword v)) (offs (length pre) l k) (pre ++ enc (map (img tgt) l) ++ post)
    = pre ++ enc (map (img (fun s => if idd s =? k then v else tgt s)) l) ++ post.
  Proof.
    intros k v. induction l as [|s l IH]; intros tgt pre post; cbn [offs fold_left map enc flat_map]; [reflexivity|].
    assert (L : length (enc1 (img tgt s)) = length (enc1 (img idd s))).
    { rewrite !enc1_length. unfold image. destruct (res s); reflexivity. }
    rewrite fold_left_app. fold (enc (map (img tgt) l)) (enc (map (img (fun s => if idd s =? k then v else tgt s)) l)).
    set (tgt' := fun s => if idd s =? k then v else tgt s) in *.
    assert (E : fold_left (fun b ofs => patch b ofs (dword v)) (if res s && (idd s =? k) then [length pre + 5]%nat else [])
                  (pre ++ (enc1 (img tgt s) ++ enc (map (img tgt) l)) ++ post)
              = pre ++ (enc1 (img tgt' s) ++ enc (map (img tgt) l)) ++ post).
    { unfold image at 1 3. subst tgt'. cbv beta. destruct (res s); cbn [andb fold_left]; [|reflexivity].
      destruct (idd s =? k); cbn [fold_left]; [|reflexivity]. unfold enc1. cbn [fst snd].
      change (len (dword (tgt s))) with 4. change (len (dword v)) with 4.
      replace (pre ++ ((dword 4 ++ 253 :: dword (tgt s)) ++ enc (map (img tgt) l)) ++ post)
        with ((pre ++ dword 4 ++ [253]) ++ dword (tgt s) ++ (enc (map (img tgt) l) ++ post)) by (rewrite <- !app_assoc; reflexivity).
      replace (length pre + 5)%nat with (length (pre ++ dword 4 ++ [253])) by (rewrite app_length; reflexivity).
      rewrite patch_app by reflexivity. rewrite <- !app_assoc. reflexivity. }
    rewrite E.
    assert (L' : length (enc1 (img tgt' s)) = length (enc1 (img idd s))).
    { rewrite !enc1_length. unfold image. destruct (res s); reflexivity. }
    replace (pre ++ (enc1 (img tgt' s) ++ enc (map (img tgt) l)) ++ post)
      with ((pre ++ enc1 (img tgt' s)) ++ enc (map (img tgt) l) ++ post) by (rewrite <- !app_assoc; reflexivity).
    replace (length pre + length (enc1 (img idd s)))%nat with (length (pre ++ enc1 (img tgt' s))) by (rewrite app_length; lia).
    rewrite IH. rewrite <- !app_assoc. reflexivity.
  Qed.

  Definition target (renum : list (Z * Z)) (s : aid) : Z :=
    match dict_get Z.eqb renum (idd s) with Some v => v | None => idd s end.

  Lemma patch_all : forall refs base l pre post, length pre = base ->
    (forall k, match dict_get Z.eqb refs k with Some o => o | None => [] end = offs base l k) ->
    forall renum tgt b, NoDup (map fst renum) ->
    fold_left (fun b kv => do b <- b; patch_refs refs b kv) renum (Some (pre ++ enc (map (img tgt) l) ++ post)) = Some b ->
    b = pre ++ enc (map (img (fun s => match dict_get Z.eqb renum (idd s) with Some v => v | None => tgt s end)) l) ++ post.
  Proof.
    intros refs base l pre post Hb Hr. induction renum as [|[k v] renum IH]; intros tgt b Nd H; cbn [fold_left dict_get] in *.
    - apply some_inj in H. now subst.
    - cbn [map fst] in Nd. inversion Nd as [|? ? N1 N2]; subst. unfold patch_refs in H at 2. cbn [bind fst snd] in H.
      assert (Nf : forall (m : list (Z * Z)), fold_left (fun b kv => do b <- b; patch_refs refs b kv) m None = None)
        by (induction m; cbn; auto).
      destruct (pack_I v) as [dv|] eqn:Ev; cbn [bind] in H; [|rewrite Nf in H; discriminate].
      apply pack_I_dword in Ev as [Rv ->]. rewrite Hr in H. rewrite patch_section in H.
      apply IH in H; [|exact N2]. subst b. f_equal. f_equal. f_equal. apply map_ext. intro s. unfold image.
      destruct (res s); [|reflexivity]. do 2 f_equal. destruct (idd s =? k) eqn:E; [|reflexivity].
      apply Z.eqb_eq in E. destruct (dict_get Z.eqb renum (idd s)) as [x|] eqn:D; [|reflexivity].
      exfalso. apply N1. apply dget_In in D. apply (in_map fst) in D. cbn in D. congruence.
  Qed.

  (** ** Resources *)
  Variable dom : list aid.
  Hypothesis Hids : forall s, In s dom -> exists v, ids s = Some v /\ 0 < v.
  Hypothesis Hinj : forall s t, In s dom -> In t dom -> ids s = ids t -> s = t.
  Hypothesis Hhash : forall s t, In s dom -> In t dom -> hash (data s) = hash (data t) -> data s = data t.

  Definition under (R : list (Z * bytes)) (id : Z) : list bytes := map snd (filter (fun r => fst r =? id) R).
  Lemma under_app : forall R R' id, under (R ++ R') id = under R id ++ under R' id.
  Proof. intros. unfold under. now rewrite filter_app, map_app. Qed.
  Lemma under_same : forall id l, under (map (fun d => (id, d)) l) id = l.
  Proof.
    intros id l. unfold under. induction l as [|d l IH]; [reflexivity|]. cbn [map filter fst]. rewrite Z.eqb_refl. cbn [map snd]. now rewrite IH.
  Qed.
  Lemma under_other : forall id id' l, id <> id' -> under (map (fun d => (id, d)) l) id' = [].
  Proof.
    intros id id' l H. unfold under. induction l as [|d l IH]; [reflexivity|]. cbn [map filter fst]. now replace (id =? id') with false by lia.
  Qed.

  Record winv (b0 : bytes) (w : wstate) (R : list (Z * bytes)) : Prop := {
    i_file : w_file w = b0 ++ encR R;
    i_dom : incl (w_written w) dom;
    i_rng : Forall (fun p => 0 < fst p < 4294967296 /\ len (snd p) < 4294967296) R;
    i_data : forall s, In s (w_written w) -> under R (target (w_renum w) s) = data s;
    i_hash : forall h i, dict_get Z.eqb (w_hashes w) h = Some i -> exists t, In t (w_written w) /\ i = idd t /\ hash (data t) = h /\
               under R i = data t /\ dict_get Z.eqb (w_renum w) i = None;
    i_all : forall s, In s (w_written w) -> dict_get Z.eqb (w_hashes w) (hash (data s)) = Some (target (w_renum w) s);
    i_renum : forall k v, dict_get Z.eqb (w_renum w) k = Some v -> exists s, In s (w_written w) /\ k = idd s;
    i_tgt : forall s, In s (w_written w) -> exists t, In t (w_written w) /\ target (w_renum w) s = idd t;
    i_ids : forall p, In p R -> exists s, In s (w_written w) /\ fst p = target (w_renum w) s;
    i_nodup : NoDup (map fst (w_renum w)) }.

  Lemma idd_inj : forall s t, In s dom -> In t dom -> idd s = idd t -> s = t.
  Proof.
    intros s t Hs Ht E. apply Hinj; try assumption. destruct (Hids s Hs) as (v & Ev & _). destruct (Hids t Ht) as (v' & Ev' & _).
    unfold idd in E. rewrite Ev, Ev' in *. congruence.
  Qed.

  Lemma resources_bytes : forall id l c, concat_opt (map (write_resource id) l) = Some c ->
    c = encR (map (fun d => (id, d)) l) /\ Forall (fun d => 0 <= id < 4294967296 /\ len d < 4294967296) l.
  Proof.
    intros id. induction l as [|d l IH]; intros c H; cbn [map concat_opt] in H.
    - apply some_inj in H. subst c. now split.
    - bnd H x Hx. bnd H y Hy. apply some_inj in H. subst c. destruct (IH y Hy) as [-> F].
      unfold write_resource in Hx. bnd Hx h Hh. apply some_inj in Hx. subst x. cbn [concat_opt] in Hh.
      bnd Hh p Hp. bnd Hh q Hq. apply some_inj in Hh. subst h. bnd Hq r Hr. apply some_inj in Hq. subst q.
      apply pack_I_dword in Hp as [Rp ->]. apply pack_I_dword in Hr as [Rr ->].
      split; [|constructor; [split; [exact Rp|apply Rr]|exact F]]. cbn [map encR flat_map]. unfold encR1 at 1. cbn [fst snd].
      rewrite app_nil_r, <- !app_assoc. reflexivity.
  Qed.

  Lemma write_resources_spec : forall b0 sched w R w', winv b0 w R -> (forall e, In e sched -> In (en_sprite e) dom) ->
    write_resources hash ids data sched w = Some w' ->
    exists R', winv b0 w' R' /\ (forall s, In s (w_written w') <-> In s (w_written w) \/ In s (map en_sprite sched)) /\
      (NoDup (rev (w_written w) ++ map en_sprite sched) -> w_events w' = w_events w ++ flat_map entry_events sched).
  Proof.
    intros b0. induction sched as [|e sched IH]; intros w R w' I Hd H; cbn [write_resources] in H.
    - apply some_inj in H. subst w'. exists R. split; [exact I|]. split; [cbn; tauto|]. intros _. cbn. now rewrite app_nil_r.
    - assert (Hd' : forall e, In e sched -> In (en_sprite e) dom) by (intros x X; apply Hd; now right).
      assert (De : In (en_sprite e) dom) by (apply Hd; now left). clear Hd.
      set (s := en_sprite e) in *. cbn [map flat_map]. fold s.
      destruct (mem s (w_written w)) eqn:M.
      + apply mem_In in M. destruct (IH (mkW (w_file w) (w_hashes w) (w_renum w) (w_written w) (w_events w ++ map ELoad (en_load e))) R w') as (R' & I' & HW & _);
          [destruct I; constructor; assumption|exact Hd'|exact H|].
        cbn [w_written] in HW. exists R'. split; [exact I'|]. split.
        * intro x. rewrite HW. cbn [In]. intuition. subst x. tauto.
        * intro Nd. exfalso. apply NoDup_remove_2 in Nd. apply Nd, in_or_app. left. now apply in_rev in M.
      + apply mem_notIn in M. apply bind_some in H as [id [Hid H]]; cbv beta iota in H. assert (EI : idd s = id) by (unfold idd; now rewrite Hid).
        destruct (Hids s De) as (v & Ev & Pv). assert (v = id) by congruence. subst v.
        destruct I as [If Idm Ir Id Ih Ia In0 It Ii Inn].
        assert (Fresh : forall t, In t (w_written w) -> idd t <> id).
        { intros t T E. apply M. rewrite <- EI in E. now rewrite <- (idd_inj t s (Idm t T) De E). }
        assert (NR : dict_get Z.eqb (w_renum w) id = None).
        { destruct (dict_get Z.eqb (w_renum w) id) eqn:D; [|reflexivity]. destruct (In0 _ _ D) as (t & T & E). now destruct (Fresh t T). }
        destruct (dict_get Z.eqb (w_hashes w) (hash (data s))) as [sid|] eqn:Hh.
        * (* a duplicate *)
          destruct (Ih _ _ Hh) as (t & T & -> & Et & Ut & Nt).
          assert (TG : forall x, In x (w_written w) -> target (dict_set Z.eqb (w_renum w) id (idd t)) x = target (w_renum w) x).
          { intros x X. unfold target. rewrite dget_set. replace (idd x =? id) with false; [reflexivity|]. symmetry. apply Z.eqb_neq. now apply Fresh. }
          assert (TS : target (dict_set Z.eqb (w_renum w) id (idd t)) s = idd t).
          { unfold target. rewrite dget_set, EI, Z.eqb_refl. reflexivity. }
          match type of H with write_resources _ _ _ _ ?w1 = _ => destruct (IH w1 R w') as (R' & I' & HW & HE); [|exact Hd'|exact H|] end.
          -- constructor; cbn [w_file w_hashes w_renum w_written].
             ++ exact If.
             ++ intros x [<-|X]; [exact De|now apply Idm].
             ++ exact Ir.
             ++ intros x [<-|X]; [rewrite TS, Ut; apply Hhash; auto|rewrite TG by exact X; now apply Id].
             ++ intros h i D. destruct (Ih h i D) as (u & U & -> & Eu & Uu & Nu). exists u. split; [now right|]. split; [reflexivity|].
                split; [exact Eu|]. split; [exact Uu|]. rewrite dget_set. replace (idd u =? id) with false; [exact Nu|]. symmetry. apply Z.eqb_neq. now apply Fresh.
             ++ intros x [<-|X]; [rewrite TS; exact Hh|rewrite TG by exact X; now apply Ia].
             ++ intros k v D. rewrite dget_set in D. destruct (k =? id) eqn:E; [apply Z.eqb_eq in E; exists s; split; [now left|congruence]|].
                destruct (In0 k v D) as (x & X & Ex). exists x. split; [now right|exact Ex].
             ++ intros x [<-|X]; [exists t; split; [now right|exact TS]|]. rewrite TG by exact X. destruct (It x X) as (u & U & Eu). exists u. split; [now right|exact Eu].
             ++ intros p P. destruct (Ii p P) as (x & X & Ex). exists x. split; [now right|]. now rewrite TG.
             ++ now apply dset_nodup.
          -- exists R'. split; [exact I'|]. cbn [w_written w_events] in *. split.
             ++ intro x. rewrite HW. cbn [In]. intuition.
             ++ intro Nd. rewrite HE; [|cbn [rev]; rewrite <- app_assoc; exact Nd]. unfold entry_events at 2. fold s.
                rewrite <- !app_assoc. reflexivity.
        * (* new data *)
          bnd H c Hc. apply resources_bytes in Hc as [-> Fc].
          set (N := map (fun d => (id, d)) (data s)) in *.
          assert (UN : forall i, i <> id -> under (R ++ N) i = under R i).
          { intros i Ni. rewrite under_app. unfold N. rewrite under_other by congruence. apply app_nil_r. }
          assert (TG : forall x, In x (w_written w) -> target (w_renum w) x <> id).
          { intros x X. destruct (It x X) as (u & U & ->). now apply Fresh. }
          assert (U0 : under R id = []).
          { unfold under. destruct (filter (fun r => fst r =? id) R) as [|p l] eqn:E; [reflexivity|].
            assert (P : In p (filter (fun r => fst r =? id) R)) by (rewrite E; now left). apply filter_In in P as [P1 P2].
            destruct (Ii p P1) as (x & X & Ex). apply Z.eqb_eq in P2. exfalso. apply (TG x X). congruence. }
          assert (TS : target (w_renum w) s = id) by (unfold target; rewrite EI, NR; reflexivity).
          assert (US : under (R ++ N) id = data s).
          { rewrite under_app, U0. unfold N. apply under_same. }
          match type of H with write_resources _ _ _ _ ?w1 = _ => destruct (IH w1 (R ++ N) w') as (R' & I' & HW & HE); [|exact Hd'|exact H|] end.
          -- constructor; cbn [w_file w_hashes w_renum w_written].
             ++ rewrite If, <- app_assoc. f_equal. unfold encR. now rewrite flat_map_app.
             ++ intros x [<-|X]; [exact De|now apply Idm].
             ++ apply Forall_app. split; [exact Ir|]. unfold N. clear - Fc Pv. induction (data s) as [|d l IHl]; [constructor|].
                inversion Fc as [|? ? F1 F2]; subst. cbn [map]. constructor; [cbn [fst snd]; lia|now apply IHl].
             ++ intros x [<-|X]; [now rewrite TS|rewrite UN by (now apply TG); now apply Id].
             ++ intros h i D. rewrite dget_set in D. destruct (h =? hash (data s)) eqn:E.
                ** apply Z.eqb_eq in E. apply some_inj in D. subst i h. exists s. split; [now left|]. split; [now symmetry|]. split; [reflexivity|]. now split.
                ** destruct (Ih h i D) as (u & U & -> & Eu & Uu & Nu). exists u. split; [now right|]. split; [reflexivity|]. split; [exact Eu|].
                   split; [|exact Nu]. rewrite UN; [exact Uu|now apply Fresh].
             ++ intros x [<-|X]; rewrite dget_set.
                ** rewrite Z.eqb_refl. now rewrite TS.
                ** destruct (hash (data x) =? hash (data s)) eqn:E; [|now apply Ia]. apply Z.eqb_eq in E. rewrite <- E, (Ia x X) in Hh. discriminate.
             ++ intros k v D. destruct (In0 k v D) as (x & X & Ex). exists x. split; [now right|exact Ex].
             ++ intros x [<-|X]; [exists s; split; [now left|congruence]|]. destruct (It x X) as (u & U & Eu). exists u. split; [now right|exact Eu].
             ++ intros p P. apply in_app_or in P as [P|P].
                ** destruct (Ii p P) as (x & X & Ex). exists x. split; [now right|exact Ex].
                ** unfold N in P. apply in_map_iff in P as (d & <- & _). exists s. split; [now left|now symmetry].
             ++ exact Inn.
          -- exists R'. split; [exact I'|]. cbn [w_written w_events] in *. split.
             ++ intro x. rewrite HW. cbn [In]. intuition.
             ++ intro Nd. rewrite HE; [|cbn [rev]; rewrite <- app_assoc; exact Nd]. unfold entry_events at 2. fold s.
                rewrite <- !app_assoc. reflexivity.
  Qed.

  (** ** The whole file *)
  Variable sprites : list aid.
  Variable sched : list entry.
  Hypothesis Hdom1 : forall s, In s sprites -> res s = true -> In s (map en_sprite sched).
  Hypothesis Hdom2 : forall s, In s (map en_sprite sched) -> In s sprites /\ res s = true /\ In s dom.
  Hypothesis Hpseudo : forall s, In s sprites -> res s = false -> pseudo s <> [].

  Lemma write_file_spec : forall b ev, write_file hash res pseudo data ids sprites sched = Some (b, ev) ->
    exists c tgt, read_file b = Some c /\
      c_header c = grf_header /\ c_compression c = 0 /\ c_magic c = [4; 0; 0; 0; 255; 2; 0; 0; 0] /\
      c_offset c = c_real_offset c /\ 14 + c_offset c = len b - len (encR (c_reals c)) - 4 /\ c_rest c = [] /\
      c_pseudos c = map (img tgt) sprites /\
      (forall s, In s sprites -> res s = true -> stored c (tgt s) = data s) /\
      (forall s t, In s sprites -> In t sprites -> res s = true -> res t = true -> data s = data t -> tgt s = tgt t) /\
      (forall p, In p (c_reals c) -> exists s, In s sprites /\ res s = true /\ fst p = tgt s) /\
      (NoDup (map en_sprite sched) -> ev = flat_map entry_events sched).
  Proof.
    intros b ev H. unfold write_file in H. cbv zeta in H.
    bnd H p0 Hp0. destruct p0 as [b0 o0]. bnd H p1 Hp1. destruct p1 as [b1 refs]. bnd H w Hw. bnd H o Ho.
    apply pack_I_dword in Ho as [Ro ->]. bnd H bb Hb. apply some_inj, pair_inj in H as [<- <-].
    assert (E0 : b0 = (grf_header ++ [0; 0; 0; 0] ++ [0]) ++ [4; 0; 0; 0; 255; 2; 0; 0; 0]).
    { unfold write_pseudo in Hp0. vm_compute in Hp0. injection Hp0 as <- _. reflexivity. }
    clear Hp0 o0.
    destruct (write_pseudos_spec _ _ _ _ _ Hp1) as (E1 & Hr & HF1 & HF2). cbn [dict_get app] in Hr.
    destruct (write_resources_spec (b1 ++ [0; 0; 0; 0]) sched (mkW (b1 ++ [0; 0; 0; 0]) [] [] [] []) [] w) as (R & I & HW & HE).
    { constructor; cbn; try (intros; contradiction); try discriminate; try constructor.
      - now rewrite app_nil_r.
      - intros x []. }
    { intros e E. apply (in_map en_sprite) in E. now apply Hdom2 in E. }
    { exact Hw. }
    cbn [w_written w_events rev app] in HW, HE.
    set (mid := [0] ++ [4; 0; 0; 0; 255; 2; 0; 0; 0]).
    set (P := map (img idd) sprites) in *.
    set (fin := [0; 0; 0; 0] ++ encR R ++ [0; 0; 0; 0]).
    assert (Ef : w_file w ++ [0; 0; 0; 0] = grf_header ++ dword 0 ++ (mid ++ enc P ++ fin)).
    { rewrite (i_file _ _ _ I), E1, E0. unfold mid, fin. change (dword 0) with [0; 0; 0; 0]. rewrite <- !app_assoc. reflexivity. }
    rewrite Ef in Hb. rewrite patch_app in Hb by reflexivity.
    set (O := len b1 - Z.of_nat (length grf_header)) in *.
    replace (grf_header ++ dword O ++ mid ++ enc P ++ fin) with ((grf_header ++ dword O ++ mid) ++ enc P ++ fin) in Hb by (rewrite <- !app_assoc; reflexivity).
    apply patch_all with (base := length b0) in Hb; [|subst b0; reflexivity|exact Hr|exact (i_nodup _ _ _ I)].
    set (tgt := target (w_renum w)) in *.
    change (fun s => match dict_get Z.eqb (w_renum w) (idd s) with Some v => v | None => idd s end) with tgt in Hb.
    set (Q := map (img tgt) sprites) in *.
    assert (LQ : length (enc Q) = length (enc P)).
    { unfold Q, P, enc. clear. induction sprites as [|s l IH]; [reflexivity|]. cbn [map flat_map]. rewrite !app_length, IH, !enc1_length.
      unfold image. destruct (res s); reflexivity. }
    assert (FQ : Forall (fun p => snd p <> [] /\ len (snd p) < 4294967296) Q).
    { unfold Q. apply Forall_map. apply Forall_forall. intros s S. rewrite Forall_forall in HF1. specialize (HF1 s S).
      unfold image in *. destruct (res s) eqn:Rs; cbn [snd] in *; [split; [discriminate|reflexivity]|split; [now apply Hpseudo|exact HF1]]. }
    assert (Eb : bb = 0 :: [0; 71; 82; 70; 130; 13; 10; 26; 10] ++ dword O ++ 0 :: [4; 0; 0; 0; 255; 2; 0; 0; 0] ++ enc Q ++ [0; 0; 0; 0] ++ encR R ++ [0; 0; 0; 0] ++ []).
    { rewrite Hb. unfold mid, fin, grf_header. rewrite <- !app_assoc. reflexivity. }
    assert (Lb1 : length b1 = (24 + length (enc Q))%nat) by (rewrite E1, app_length, LQ, E0; reflexivity).
    assert (EO : O = 14 + len (enc Q)) by (unfold O, len in *; rewrite Lb1; cbn [grf_header length]; lia).
    assert (Lbb : length bb = (32 + length (enc Q) + length (encR R))%nat).
    { rewrite Eb. unfold dword. repeat (progress (rewrite ?app_length; cbn [length])). lia. }
    assert (LE : forall l, (length l <= length (enc l))%nat).
    { induction l as [|x l IH]; [cbn; lia|]. cbn [enc flat_map length]. rewrite app_length, enc1_length. fold (enc l). lia. }
    assert (LR : forall l, (length l <= length (encR l))%nat).
    { induction l as [|x l IH]; [cbn; lia|]. cbn [encR flat_map length]. rewrite app_length, encR1_length. fold (encR l). lia. }
    set (tail2 := encR R ++ [0; 0; 0; 0] ++ []) in *.
    exists (mkC grf_header O O 0 [4; 0; 0; 0; 255; 2; 0; 0; 0] Q R []), tgt.
    split; [|cbn [c_header c_compression c_magic c_offset c_real_offset c_rest c_pseudos c_reals]].
    - unfold read_file. rewrite Eb at 1. cbn [rd_B bind]. rewrite Z.eqb_refl.
      change 9%nat with (length [0; 71; 82; 70; 130; 13; 10; 26; 10]) at 1. rewrite take_app. cbn [bind].
      rewrite rd_dword by lia. cbn [bind rd_B]. cbv zeta.
      change 9%nat with (length [4; 0; 0; 0; 255; 2; 0; 0; 0]). rewrite take_app. cbn [bind].
      rewrite read_pseudos_enc; [|eapply Nat.le_lt_trans; [apply LE|rewrite Lbb; lia]|exact FQ]. cbn [bind].
      assert (RR : read_reals (length bb) tail2 = Some (R, [])).
      { unfold tail2. apply read_reals_enc; [eapply Nat.le_lt_trans; [apply LR|rewrite Lbb; lia]|exact (i_rng _ _ _ I)]. }
      rewrite RR. cbn [bind].
      match goal with |- Some (mkC _ _ ?x _ _ _ _ _) = _ => replace x with O; [reflexivity|] end.
      assert (T2 : length tail2 = (length (encR R) + 4)%nat) by (unfold tail2; rewrite app_length; reflexivity).
      unfold len. rewrite Lbb. repeat (progress (rewrite ?app_length; cbn [length])). rewrite T2, EO. unfold len. lia.
    - split; [reflexivity|]. split; [reflexivity|]. split; [reflexivity|]. split; [reflexivity|].
      split; [unfold len; rewrite Lbb; rewrite EO; unfold len; lia|].
      split; [reflexivity|]. split; [reflexivity|]. split; [|split; [|split]].
      + intros s S Rs. unfold stored. cbn [c_reals]. apply (i_data _ _ _ I). apply HW. right. now apply Hdom1.
      + intros s t S T Rs Rt E. assert (Ws : In s (w_written w)) by (apply HW; right; now apply Hdom1).
        assert (Wt : In t (w_written w)) by (apply HW; right; now apply Hdom1).
        pose proof (i_all _ _ _ I s Ws) as A. rewrite E, (i_all _ _ _ I t Wt) in A. now apply some_inj in A.
      + intros p Pp. destruct (i_ids _ _ _ I p Pp) as (s & S & E). exists s. apply HW in S as [[]|S]. destruct (Hdom2 s S) as (A & B & _). auto.
      + intro Nd. apply HE. exact Nd.
  Qed.
End W.
