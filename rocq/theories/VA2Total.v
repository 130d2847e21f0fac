(** Proofs for C21: compilation succeeds on accepted code. *)
From Coq Require Import ZArith List Bool Lia ZifyBool FinFun.
From Verif Require Import Base BaseFacts CommonModel RecordsModel Action14Model VA2Model SpecVA2 VA2Proofs VA2Compile VA2Simplify VA2Switch.
Import ListNotations.
Open Scope Z_scope.

(** [k] temporaries are held; all names have different registers. *)
Record counted (k : Z) (ns : list name) (c : ctx) : Prop := {
  n_inv : inv c;
  n_nd : NoDup (c_used c);
  n_len : len (c_used c) = k + len (c_vars c);
  n_vnd : NoDup (map fst (c_vars c));
  n_incl : incl (map fst (c_vars c)) ns }.

Lemma len_cons : forall {X} (x : X) l, len (x :: l) = 1 + len l.
Proof. intros. unfold len. cbn [length]. lia. Qed.

Lemma reserve_some : forall c, inv c -> NoDup (c_used c) -> len (c_used c) < 128 ->
  exists r c', reserve_register c = Some (r, c').
Proof.
  intros c I N L. unfold reserve_register. destruct (find _ _) as [r|] eqn:E; [cbn [bind]; eauto|exfalso].
  assert (Q : incl (zrange 128 256) (c_used c)).
  { intros i Hi. apply zrange_In in Hi. destruct (Z_lt_dec i (c_min c)); [apply (i_low _ I); lia|].
    pose proof (find_zrange_none _ _ _ E i ltac:(lia)) as Q. apply negb_false_iff, memz_In in Q. exact Q. }
  assert (Nz : NoDup (zrange 128 256)).
  { unfold zrange. apply Injective_map_NoDup; [intros x y; lia|apply seq_NoDup]. }
  pose proof (NoDup_incl_length Nz Q) as W. unfold zrange in W. rewrite map_length, seq_length in W. unfold len in L. lia.
Qed.

Lemma filter_len : forall l r, NoDup l -> In r l -> len (filter (fun i => negb (i =? r)) l) = len l - 1.
Proof.
  induction l as [|x l IH]; intros r N H; [easy|]. inversion N as [|? ? Nx Nl]; subst. cbn [filter].
  destruct (x =? r) eqn:E; cbn [negb].
  - apply Z.eqb_eq in E; subst. rewrite len_cons.
    assert (filter (fun i => negb (i =? r)) l = l) as ->; [|lia].
    clear -Nx. induction l as [|y l IH]; [reflexivity|]. cbn [filter].
    assert (y <> r) by (intro; subst; apply Nx; now left). destruct (y =? r) eqn:E; [lia|]. cbn [negb]. f_equal. apply IH.
    intro; apply Nx; now right.
  - destruct H as [->|H]; [lia|]. rewrite !len_cons. rewrite IH by assumption. lia.
Qed.

Lemma dict_set_new : forall (l : list (name * Z)) x r, dict_get bytes_eqb l x = None -> dict_set bytes_eqb l x r = l ++ [(x, r)].
Proof.
  induction l as [|[k w] l IH]; intros x r H; cbn [dict_get dict_set] in *; [reflexivity|].
  destruct (bytes_eqb x k); [discriminate|]. cbn [app]. f_equal. now apply IH.
Qed.

Lemma NoDup_snoc : forall {X} (l : list X) x, NoDup l -> ~ In x l -> NoDup (l ++ [x]).
Proof.
  intros X l x N H. induction N as [|y l Ny N IH]; cbn [app]; [repeat constructor; easy|].
  constructor; [|apply IH; intro; apply H; now right]. rewrite in_app_iff. intros [Q|[->|[]]]; [easy|]. apply H; now left.
Qed.

Lemma vars_bound : forall k ns c, counted k ns c -> len (c_used c) <= k + len ns.
Proof.
  intros k ns c N. rewrite (n_len _ _ _ N). pose proof (NoDup_incl_length (n_vnd _ _ _ N) (n_incl _ _ _ N)) as Q.
  rewrite map_length in Q. unfold len. lia.
Qed.

Section T.
Variable tab : name -> option vdata.
Variable subs : list (name * sub_ref).

Lemma pk_varp_ok : forall var p sh m, 0 <= var < 256 -> 0 <= p < 256 -> 0 <= sh < 32 -> 0 <= m < 4294967296 ->
  exists b, pk_varp var p sh m = Some b.
Proof.
  intros var p sh m H1 H2 H3 H4. unfold pk_varp. cbn [concat_opt]. rewrite !pack_B_ok; [|..|lia|lia].
  - cbn [bind]. rewrite pack_I_ok by lia. cbn [bind]. eauto.
  - assert (W : 0 <= Z.lor 32 sh < 2 ^ 6); [|change (2 ^ 6) with 64 in W; lia].
    split; [apply Z.lor_nonneg; lia|]. destruct (Z.eq_dec (Z.lor 32 sh) 0) as [->|]; [reflexivity|].
    apply Z.log2_lt_pow2; [pose proof (proj2 (Z.lor_nonneg 32 sh)); lia|]. rewrite Z.log2_lor by lia.
    apply Z.max_lub_lt; [reflexivity|]. destruct (Z.eq_dec sh 0) as [->|]; [reflexivity|]. apply Z.log2_lt_pow2; [lia|]. change (2 ^ 6) with 64. lia.
Qed.
Lemma pk_var_ok' : forall var sh m, 0 <= var < 256 -> 0 <= sh < 32 -> 0 <= m < 4294967296 ->
  exists b, pk_var var sh m = Some b.
Proof.
  intros var sh m H1 H3 H4. destruct (pk_varp_ok var 0 sh m) as [b H]; try lia. unfold pk_varp in H. unfold pk_var.
  cbn [concat_opt] in *. destruct (pack_B var); [|discriminate]. cbn [bind] in *.
  rewrite (pack_B_ok 0) in H by lia. cbn [bind] in H.
  destruct (pack_B (Z.lor 32 sh)); [|discriminate]. cbn [bind] in *. destruct (pack_I m); [|discriminate]. cbn [bind]. eauto.
Qed.
Lemma land_ok : forall m, 0 <= Z.land 4294967295 m < 4294967296.
Proof. intro m. rewrite Z.land_comm. pose proof (land_rng m 4294967295 ltac:(lia)). lia. Qed.

Definition keys (c : ctx) : list name := map fst (c_vars c).
Definition goodc (k : Z) (ns : list name) (c : ctx) : Prop := counted k ns c /\ c_subs c = subs.

Lemma st_ok : forall o r, 0 <= o < 256 -> 0 <= r < 256 ->
  exists b, concat_opt [pack_B o; pack_B 26; pack_B 32; pack_I r] = Some b.
Proof.
  intros o r H1 H2. cbn [concat_opt]. rewrite !pack_B_ok by lia. cbn [bind]. rewrite pack_I_ok by lia. cbn [bind]. eauto.
Qed.
Lemma st_ok2 : forall o r p, 0 <= o < 256 -> 0 <= r < 4294967296 -> 0 <= p < 256 ->
  exists b, concat_opt [pack_B o; pack_B 26; pack_B 32; pack_I r; pack_B p] = Some b.
Proof.
  intros o r p H1 H2 H3. cbn [concat_opt]. rewrite !pack_B_ok by lia. cbn [bind]. rewrite pack_I_ok by lia. cbn [bind]. eauto.
Qed.

Definition compiles (xs : list name) (e : node) : Prop := forall k ns c,
  goodc k ns c -> incl xs (keys c) -> 0 <= k -> incl (assigned e) ns -> k + len ns + temporaries e <= 128 ->
  exists isv code c', compile tab e 0 4294967295 c = Some (isv, code, c') /\ goodc k ns c' /\ ext c c' /\ incl (keys c) (keys c') /\ incl (assigned e) (keys c') /\ (is_simple e = true -> isv = true).

Lemma ld_ok : forall o var p sh m, 0 <= o < 256 -> 0 <= var < 256 -> 0 <= p < 256 -> 0 <= sh < 32 -> 0 <= m < 4294967296 ->
  exists b, concat_opt [pack_B o; pk_varp var p sh m] = Some b.
Proof.
  intros. cbn [concat_opt]. rewrite pack_B_ok by assumption. cbn [bind]. destruct (pk_varp_ok var p sh m) as [b ->]; try lia.
  cbn [bind]. eauto.
Qed.

Lemma indirect : forall xs p, compiles xs p -> forall var sh m, 0 <= var < 256 -> 0 <= sh < 32 -> 0 <= m < 4294967296 ->
  forall (isv : bool) k ns c, goodc k ns c -> incl xs (keys c) -> 0 <= k -> incl (assigned p) ns -> k + len ns + temporaries p <= 128 ->
  exists code c', (do (_, code, c) <- compile tab p 0 4294967295 c;
     do ld <- concat_opt [pack_B OP_INIT; pk_varp 123 var sh m]; Some (isv, code ++ ld, c)) = Some (isv, code, c')
   /\ goodc k ns c' /\ ext c c' /\ incl (keys c) (keys c') /\ incl (assigned p) (keys c').
Proof.
  intros xs p Hp var sh m H1 H2 H3 isv k ns c G X K I T. destruct (Hp k ns c G X K I T) as [i [code [c' [E [G' [Xt [I1 [I2 _]]]]]]]].
  rewrite E. cbn [bind]. destruct (ld_ok OP_INIT 123 var sh m) as [b Hb]; try (unfold OP_INIT; lia).
  rewrite Hb. cbn [bind]. eauto 10.
Qed.

Lemma reserve_goodc : forall k ns c, goodc k ns c -> 0 <= k -> k + len ns < 128 ->
  exists r c', reserve_register c = Some (r, c') /\ 128 <= r < 256 /\ goodc (k + 1) ns c' /\ keys c' = keys c /\
    c_used c' = r :: c_used c /\ ~ In r (c_used c) /\ c_vars c' = c_vars c.
Proof.
  intros k ns c [N S] K L. pose proof (vars_bound _ _ _ N).
  destruct (reserve_some c (n_inv _ _ _ N) (n_nd _ _ _ N)) as [r [c' R]]; [lia|]. exists r, c'.
  destruct (reserve_ok _ _ _ (n_inv _ _ _ N) R) as [I [Nr [Hr [U [V [Sb _]]]]]].
  split; [assumption|]. split; [lia|]. split; [split|split; [unfold keys; now rewrite V|auto]].
  - constructor; [assumption| | | |].
    + rewrite U. constructor; [assumption|apply N].
    + rewrite U, V, len_cons, (n_len _ _ _ N). lia.
    + rewrite V. apply N.
    + rewrite V. apply N.
  - congruence.
Qed.

Lemma tmp_nonneg : forall e, 0 <= temporaries e.
Proof. induction e; cbn [temporaries]; try lia. destruct (is_simple e2); lia. Qed.

Lemma vget_keys : forall c x, In x (keys c) -> exists r, get_variable_register c x = Some r.
Proof. intros c x H. apply dict_get_in, H. Qed.

Theorem compile_total : forall e xs, accepted tab subs xs e = true -> compiles xs e.
Proof.
  induction e as [op a IHa b IHb|x e IHe|v|x|x p IHp|var sh mk adj|var sh mk adj p IHp|p IHp|p IHp|n|x];
    intros xs A k ns c G X K I T; cbn [compile].
  - (* NExpr *)
    cbn [accepted] in A. apply andb_prop in A as [A Ab]. apply andb_prop in A as [Ao Aa].
    unfold op_ok in Ao. cbn [assigned] in I. apply incl_app_inv in I as [Ia Ib]. cbn [temporaries] in T.
    pose proof (tmp_nonneg a). pose proof (tmp_nonneg b).
    destruct (IHb xs Ab k ns c G X K Ib) as [isb [cb [c1 [Eb [G1 [X1 [I1 [J1 Sb]]]]]]]]; [destruct (is_simple b); lia|].
    rewrite Eb. cbn [bind]. destruct isb.
    + destruct (IHa xs Aa k ns c1 G1) as [isa [ca [c2 [Ea [G2 [X2 [I2 [J2 _]]]]]]]]; try assumption;
        [eapply incl_tran; eauto|destruct (is_simple b); lia|].
      rewrite Ea. cbn [bind]. unfold mk_bytes, bytesb. cbn [forallb]. unfold byteb. assert ((0 <=? op) && (op <? 256) && true = true) as -> by lia. cbn [bind].
      exists false, (ca ++ [op] ++ cb), c2. split; [reflexivity|]. split; [assumption|]. split; [eapply ext_trans; eauto|].
      split; [eapply incl_tran; eauto|]. split; [|discriminate].
      apply incl_app; [assumption|eapply incl_tran; eauto].
    + destruct (is_simple b) eqn:Sib; [specialize (Sb eq_refl); discriminate|].
      destruct (reserve_goodc k ns c1 G1 K) as [r [c2 [R [Hr [G2 [K2 [U2 [N2 V2]]]]]]]]; [lia|].
      rewrite R. cbn [bind].
      destruct (st_ok2 OP_TSTO r OP_INIT) as [st Hst]; try (unfold OP_TSTO, OP_INIT; lia). rewrite Hst. cbn [bind].
      destruct (IHa xs Aa (k + 1) ns c2 G2) as [isa [ca [c3 [Ea [G3 [X3 [I3 [J3 _]]]]]]]]; try assumption; try lia;
        [rewrite K2; eapply incl_tran; eauto|].
      rewrite Ea. cbn [bind]. destruct (ld_ok op 125 r 0 4294967295) as [ld Hld]; try lia. rewrite Hld. cbn [bind].
      assert (Ir : In r (c_used c3)) by (apply (e_used _ _ X3); rewrite U2; now left).
      destruct (release_register c3 r) as [c4|] eqn:Rel.
      2:{ unfold release_register in Rel. rewrite (proj2 (memz_In r (c_used c3)) Ir) in Rel. discriminate. }
      cbn [bind]. exists false, (cb ++ st ++ ca ++ ld), c4. split; [reflexivity|].
      destruct G1 as [N1 S1]. destruct G3 as [N3 S3].
      destruct (release_ok c1 r c2 c3 c4 (n_inv _ _ _ N1) R (n_inv _ _ _ N3) X3 Rel) as [I4 X4].
      unfold release_register in Rel. rewrite (proj2 (memz_In r (c_used c3)) Ir) in Rel. apply some_inj in Rel. subst c4.
      split; [split|].
      * constructor; cbn [c_used c_vars]; [assumption| | | |].
        -- apply NoDup_filter, N3.
        -- rewrite filter_len by (assumption || apply N3). rewrite (n_len _ _ _ N3). lia.
        -- apply N3.
        -- apply N3.
      * exact S3.
      * split; [eapply ext_trans; eauto|]. change (keys _) with (keys c3) at 2 3. rewrite K2 in I3.
        split; [eapply incl_tran; eauto|]. split; [|discriminate].
        change (keys _) with (keys c3). apply incl_app; [assumption|eapply incl_tran; eauto].
  - (* NAssign *)
    cbn [accepted] in A. cbn [assigned] in I. apply incl_app_inv in I as [Ie Ix]. cbn [temporaries] in T.
    destruct (IHe xs A k ns c G X K Ie T) as [ise [ce [c1 [Ee [G1 [X1 [I1 [J1 _]]]]]]]]. rewrite Ee. cbn [bind].
    destruct G1 as [N1 S1]. unfold reserve_variable.
    destruct (dict_get bytes_eqb (c_vars c1) x) as [r|] eqn:Dx.
    + cbn [bind]. pose proof (i_range _ (n_inv _ _ _ N1) r (i_vars _ (n_inv _ _ _ N1) x r Dx)).
      destruct (st_ok OP_TSTO r) as [st Hst]; try (unfold OP_TSTO; lia). rewrite Hst. cbn [bind].
      do 3 eexists. split; [reflexivity|]. split; [split; assumption|]. split; [assumption|]. split; [assumption|].
      split; [|discriminate]. cbn [assigned]. apply incl_app; [assumption|]. intros y [<-|[]].
      apply dict_get_val in Dx. apply (in_map fst) in Dx. exact Dx.
    + assert (Lv : len (c_vars c1) < len ns).
      { assert (Nx : NoDup (x :: keys c1)).
        { constructor; [|apply N1]. intro Q. apply vget_keys in Q as [r Q]. unfold get_variable_register in Q. congruence. }
        assert (Ic : incl (x :: keys c1) ns) by (intros y [<-|Q]; [apply Ix; now left|now apply (n_incl _ _ _ N1)]).
        pose proof (NoDup_incl_length Nx Ic) as Q. cbn [length] in Q. unfold keys in Q. rewrite map_length in Q. unfold len. lia. }
      pose proof (tmp_nonneg e).
      destruct (reserve_some c1 (n_inv _ _ _ N1) (n_nd _ _ _ N1)) as [r [c2 R]]; [rewrite (n_len _ _ _ N1); lia|].
      destruct (reserve_ok _ _ _ (n_inv _ _ _ N1) R) as [I2 [Nr [Hr [U [V [Sb _]]]]]].
      assert (Rv : reserve_variable c1 x = Some (r, mkCtx (c_subs c2) (c_min c2) (c_used c2) (dict_set bytes_eqb (c_vars c2) x r))).
      { unfold reserve_variable. rewrite Dx, R. reflexivity. }
      destruct (reserve_var_ok _ _ _ _ (n_inv _ _ _ N1) Rv) as [I3 [X3 _]].
      rewrite R. cbn [bind].
      destruct (st_ok OP_TSTO r) as [st Hst]; try (unfold OP_TSTO; lia). rewrite Hst. cbn [bind].
      assert (Dn : dict_set bytes_eqb (c_vars c2) x r = c_vars c1 ++ [(x, r)]) by (rewrite V; now apply dict_set_new).
      do 3 eexists. split; [reflexivity|]. split; [split|].
      * constructor; [assumption| | | |]; cbn [c_used c_vars].
        -- rewrite U. constructor; [assumption|apply N1].
        -- rewrite Dn, U, len_cons. unfold len. rewrite app_length. cbn [length]. pose proof (n_len _ _ _ N1) as Q. unfold len in Q. lia.
        -- rewrite Dn, map_app. apply NoDup_snoc; [apply N1|]. intro Q. cbn [fst] in Q; apply (vget_keys c1) in Q as [r2 Q]. unfold get_variable_register in Q. congruence.
        -- rewrite Dn, map_app. apply incl_app; [apply N1|assumption].
      * cbn [c_subs]. congruence.
      * split; [eapply ext_trans; eauto|]. unfold keys at 2 3. cbn [c_vars]. rewrite Dn, map_app.
        split; [eapply incl_tran; [eassumption|]; apply incl_appl, incl_refl|]. split; [|discriminate].
        cbn [assigned]. apply incl_app; [apply incl_appl; assumption|apply incl_appr, incl_refl].
  - (* NValue *)
    change (0 <? 32) with true. change (4294967295 <=? 4294967295) with true. cbv iota.
    pose proof (land_rng (Z.shiftr v 0) 4294967295 ltac:(lia)).
    cbn [concat_opt]. rewrite !pack_B_ok by lia. cbn [bind]. rewrite pack_I_ok by lia. cbn [bind].
    do 3 eexists. split; [reflexivity|]. split; [assumption|]. split; [apply ext_refl|]. split; [apply incl_refl|].
    split; [apply incl_nil_l|reflexivity].
  - (* NVar *)
    cbn [accepted] in A. destruct (tab x) as [d|] eqn:Tx.
    + unfold vd_fits in A. assert (0 + vd_start d <? 32 = true) as -> by lia.
      pose proof (land_ok (Z.shiftr (Z.shiftl 1 (vd_size d) - 1) 0)).
      assert (Z.land 4294967295 (Z.shiftr (Z.shiftl 1 (vd_size d) - 1) 0) <=? 4294967295 = true) as -> by lia. cbv iota.
      destruct (vd_param d) as [p|] eqn:Ep.
      * destruct (pk_varp_ok (vd_var d) p (0 + vd_start d) (Z.land 4294967295 (Z.shiftr (Z.shiftl 1 (vd_size d) - 1) 0))) as [b ->]; try lia.
        cbn [bind]. do 3 eexists. split; [reflexivity|]. split; [assumption|]. split; [apply ext_refl|]. split; [apply incl_refl|].
        split; [apply incl_nil_l|reflexivity].
      * destruct (pk_var_ok' (vd_var d) (0 + vd_start d) (Z.land 4294967295 (Z.shiftr (Z.shiftl 1 (vd_size d) - 1) 0))) as [b ->]; try lia.
        cbn [bind]. do 3 eexists. split; [reflexivity|]. split; [assumption|]. split; [apply ext_refl|]. split; [apply incl_refl|].
        split; [apply incl_nil_l|reflexivity].
    + assert (Ix : In x xs).
      { unfold name_in in A. apply existsb_exists in A as [y [Hy E]]. apply bytes_eqb_iff in E. now subst. }
      destruct (vget_keys c x (X x Ix)) as [r Er]. rewrite Er. cbn [bind].
      destruct G as [N S]. pose proof (i_range _ (n_inv _ _ _ N) r (i_vars _ (n_inv _ _ _ N) x r Er)).
      destruct (pk_varp_ok 125 r 0 4294967295) as [b ->]; try lia. cbn [bind].
      do 3 eexists. split; [reflexivity|]. split; [split; assumption|]. split; [apply ext_refl|]. split; [apply incl_refl|].
      split; [apply incl_nil_l|reflexivity].
  - (* NVarP *)
    cbn [accepted] in A. destruct (tab x) as [d|] eqn:Tx.
    + unfold vd_fits in A. assert (0 + vd_start d <? 32 = true) as -> by lia.
      pose proof (land_ok (Z.shiftr (Z.shiftl 1 (vd_size d) - 1) 0)).
      assert (Z.land 4294967295 (Z.shiftr (Z.shiftl 1 (vd_size d) - 1) 0) <=? 4294967295 = true) as -> by lia. cbv iota.
      destruct (vd_param d) as [q|] eqn:Ep.
      * destruct (pk_varp_ok (vd_var d) q (0 + vd_start d) (Z.land 4294967295 (Z.shiftr (Z.shiftl 1 (vd_size d) - 1) 0))) as [b ->]; try lia.
        cbn [bind]. do 3 eexists. split; [reflexivity|]. split; [assumption|]. split; [apply ext_refl|]. split; [apply incl_refl|].
        split; [apply incl_nil_l|reflexivity].
      * destruct (pk_var_ok' (vd_var d) (0 + vd_start d) (Z.land 4294967295 (Z.shiftr (Z.shiftl 1 (vd_size d) - 1) 0))) as [b ->]; try lia.
        cbn [bind]. do 3 eexists. split; [reflexivity|]. split; [assumption|]. split; [apply ext_refl|]. split; [apply incl_refl|].
        split; [apply incl_nil_l|reflexivity].
    + assert (Ix : In x xs).
      { unfold name_in in A. apply existsb_exists in A as [y [Hy E]]. apply bytes_eqb_iff in E. now subst. }
      destruct (vget_keys c x (X x Ix)) as [r Er]. rewrite Er. cbn [bind].
      destruct G as [N S]. pose proof (i_range _ (n_inv _ _ _ N) r (i_vars _ (n_inv _ _ _ N) x r Er)).
      destruct (pk_varp_ok 125 r 0 4294967295) as [b ->]; try lia. cbn [bind].
      do 3 eexists. split; [reflexivity|]. split; [split; assumption|]. split; [apply ext_refl|]. split; [apply incl_refl|].
      split; [apply incl_nil_l|reflexivity].
  - (* NGen *)
    cbn [accepted] in A. destruct adj; [lia|]. assert (0 + sh <? 32 = true) as -> by lia.
    pose proof (land_ok (Z.shiftr mk 0)). assert (Z.land 4294967295 (Z.shiftr mk 0) <=? 4294967295 = true) as -> by lia. cbv iota.
    destruct (pk_var_ok' var (0 + sh) (Z.land 4294967295 (Z.shiftr mk 0))) as [b ->]; try lia. cbn [bind].
    do 3 eexists. split; [reflexivity|]. split; [assumption|]. split; [apply ext_refl|]. split; [apply incl_refl|].
    split; [apply incl_nil_l|reflexivity].
  - (* NGenP *)
    cbn [accepted] in A. destruct adj; [lia|]. assert (0 + sh <? 32 = true) as -> by lia.
    pose proof (land_ok (Z.shiftr mk 0)). assert (Z.land 4294967295 (Z.shiftr mk 0) <=? 4294967295 = true) as -> by lia. cbv iota.
    cbn [assigned] in I. cbn [temporaries] in T.
    destruct (const_eval p) as [v|] eqn:Ec.
    + apply const_eval_Some in Ec. subst p. cbn [accepted] in A. change (2 ^ 32) with 4294967296 in A. destruct (255 <? v) eqn:Ev.
      * assert (exists b, concat_opt [pack_B 26; pack_B 32; pack_I v; pack_B OP_INIT; pk_varp 123 var (0 + sh) (Z.land 4294967295 (Z.shiftr mk 0))] = Some b) as [b ->].
        { destruct (pk_varp_ok 123 var (0 + sh) (Z.land 4294967295 (Z.shiftr mk 0))) as [b Hb]; try lia. cbn [concat_opt].
          rewrite !pack_B_ok by (unfold OP_INIT; lia). rewrite pack_I_ok by lia. cbn [bind]. rewrite Hb. cbn [bind]. eauto. }
        cbn [bind]. do 3 eexists. split; [reflexivity|]. split; [assumption|]. split; [apply ext_refl|]. split; [apply incl_refl|].
        split; [apply incl_nil_l|reflexivity].
      * destruct (pk_varp_ok var v (0 + sh) (Z.land 4294967295 (Z.shiftr mk 0))) as [b ->]; try lia. cbn [bind].
        do 3 eexists. split; [reflexivity|]. split; [assumption|]. split; [apply ext_refl|]. split; [apply incl_refl|].
        split; [apply incl_nil_l|reflexivity].
    + assert (Ap : accepted tab subs xs p = true) by (clear - A Ec; apply andb_prop in A as [_ A]; destruct p; try discriminate Ec; exact A).
      assert (V1 : 0 <= var < 256) by (clear - A; apply andb_prop in A as [A _]; lia). assert (V2 : 0 <= 0 + sh < 32) by (clear - A; apply andb_prop in A as [A _]; lia).
      destruct (indirect xs p (IHp xs Ap) var (0 + sh) (Z.land 4294967295 (Z.shiftr mk 0)) V1 V2 H true k ns c G X K I T)
        as [code [c' [E [G' [X' [I' J']]]]]]. rewrite E.
      exists true, code, c'. auto 10.
  - (* NTemp *)
    change (0 <? 32) with true. change (4294967295 <=? 4294967295) with true. cbv iota.
    cbn [accepted] in A. cbn [assigned] in I. cbn [temporaries] in T.
    destruct (const_eval p) as [v|] eqn:Ec.
    + apply const_eval_Some in Ec. subst p. destruct (pk_varp_ok 125 v 0 4294967295) as [b ->]; try lia. cbn [bind].
      do 3 eexists. split; [reflexivity|]. split; [assumption|]. split; [apply ext_refl|]. split; [apply incl_refl|].
      split; [apply incl_nil_l|reflexivity].
    + assert (Ap : accepted tab subs xs p = true) by (destruct p; try discriminate Ec; assumption).
      destruct (indirect xs p (IHp xs Ap) 125 0 4294967295 ltac:(lia) ltac:(lia) ltac:(lia) false k ns c G X K I T)
        as [code [c' [E [G' [X' [I' J']]]]]]. rewrite E.
      exists false, code, c'. split; [reflexivity|]. do 4 (split; [assumption|]). cbn [is_simple]. destruct p; discriminate.
  - (* NPerm *)
    change (0 <? 32) with true. change (4294967295 <=? 4294967295) with true. cbv iota.
    cbn [accepted] in A. cbn [assigned] in I. cbn [temporaries] in T.
    destruct (const_eval p) as [v|] eqn:Ec.
    + apply const_eval_Some in Ec. subst p. destruct (pk_varp_ok 124 v 0 4294967295) as [b ->]; try lia. cbn [bind].
      do 3 eexists. split; [reflexivity|]. split; [assumption|]. split; [apply ext_refl|]. split; [apply incl_refl|].
      split; [apply incl_nil_l|reflexivity].
    + assert (Ap : accepted tab subs xs p = true) by (destruct p; try discriminate Ec; assumption).
      destruct (indirect xs p (IHp xs Ap) 124 0 4294967295 ltac:(lia) ltac:(lia) ltac:(lia) false k ns c G X K I T)
        as [code [c' [E [G' [X' [I' J']]]]]]. rewrite E.
      exists false, code, c'. split; [reflexivity|]. do 4 (split; [assumption|]). cbn [is_simple]. destruct p; discriminate.
  - (* NCall *)
    cbn [accepted] in A. rewrite A. change (0 <? 32) with true. change (4294967295 <=? 4294967295) with true. cbv iota.
    destruct (pk_varp_ok 126 n 0 4294967295) as [b ->]; try lia. cbn [bind].
    do 3 eexists. split; [reflexivity|]. split; [assumption|]. split; [apply ext_refl|]. split; [apply incl_refl|].
    split; [apply incl_nil_l|reflexivity].
  - (* NCallN *)
    cbn [accepted] in A. change (0 <? 32) with true. change (4294967295 <=? 4294967295) with true. cbv iota.
    rewrite (proj2 G). destruct (dict_get bytes_eqb subs x) as [[n|n]|]; try discriminate. cbn [bind sub_id].
    destruct (pk_varp_ok 126 n 0 4294967295) as [b ->]; try lia. cbn [bind].
    do 3 eexists. split; [reflexivity|]. split; [assumption|]. split; [apply ext_refl|]. split; [apply incl_refl|].
    split; [apply incl_nil_l|reflexivity].
Qed.

Lemma rest_total : forall l xs ns c, accepted_lines tab subs xs l = true -> goodc 0 ns c -> incl xs (keys c) ->
  incl (assigned_lines l) ns -> Forall (fun e => len ns + temporaries e <= 128) l ->
  exists code, compile_rest tab l c = Some code.
Proof.
  induction l as [|e l IH]; intros xs ns c A G X I T; cbn [compile_rest]; [eauto|].
  cbn [accepted_lines] in A. apply andb_prop in A as [A1 A2]. unfold assigned_lines in I. cbn [map concat] in I.
  apply incl_app_inv in I as [I1 I2]. inversion T as [|? ? T1 T2]; subst.
  destruct (compile_total e xs A1 0 ns c G X ltac:(lia) I1 ltac:(lia)) as [isv [code [c' [E [G' [X' [J1 [J2 _]]]]]]]].
  rewrite E. cbn [bind]. destruct (IH (xs ++ assigned e) ns c' A2 G') as [rest Er]; try assumption.
  { apply incl_app; [eapply incl_tran; eauto|assumption]. }
  rewrite Er. cbn [bind]. eauto.
Qed.

Lemma goodc_init : forall ns, goodc 0 ns (ctx_init 128 subs).
Proof.
  intro ns. split; [|reflexivity]. constructor; cbn [c_used c_vars ctx_init map].
  - apply inv_init.
  - constructor.
  - reflexivity.
  - constructor.
  - apply incl_nil_l.
Qed.

Theorem lines_total : forall l ns, l <> [] -> accepted_lines tab subs [] l = true -> incl (assigned_lines l) ns ->
  Forall (fun e => len ns + temporaries e <= 128) l -> exists code, compile_lines tab subs l = Some code.
Proof.
  intros l ns N A I T. destruct l as [|e l]; [easy|]. unfold compile_lines. cbn [accepted_lines] in A.
  apply andb_prop in A as [A1 A2]. unfold assigned_lines in I. cbn [map concat] in I.
  apply incl_app_inv in I as [I1 I2]. inversion T as [|? ? T1 T2]; subst.
  destruct (compile_total e [] A1 0 ns _ (goodc_init ns) (incl_nil_l _) ltac:(lia) I1 ltac:(lia)) as [isv [code [c' [E [G' [X' [J1 [J2 _]]]]]]]].
  rewrite E. cbn [bind]. destruct (rest_total l ([] ++ assigned e) ns c' A2 G') as [rest Er]; try assumption.
  rewrite Er. cbn [bind]. eauto.
Qed.
End T.

Definition triv : game unit := mkGame (fun _ _ _ => 0) (fun _ m => (0, m)).
Lemma triv_clean : calls_clean triv.
Proof. intros n m1 m2 H. cbn. auto. Qed.

Lemma range_total : forall r, range_ok r -> exists b, range_data r = Some b.
Proof.
  intros r [H1 [H2 H3]]. change (2 ^ 31) with 2147483648 in *. unfold range_data.
  assert (P : forall v, -2147483648 <= v < 2147483648 -> exists b, pack_i v = Some b).
  { intros v Hv. unfold pack_i. assert ((-2147483648 <=? v) && (v <? 2147483648) = true) as -> by lia.
    rewrite pack_I_ok; [eauto|]. apply Z.mod_pos_bound. lia. }
  destruct (P _ H1) as [b1 E1]. destruct (P _ H2) as [b2 E2]. destruct (P (-1) ltac:(lia)) as [b3 E3]. destruct (P 0 ltac:(lia)) as [b4 E4].
  destruct (_ && _); cbn [concat_opt]; rewrite !pack_H_ok by lia; rewrite E1, E2, ?E3, ?E4; cbn [bind]; eauto.
Qed.

Theorem switch_total : forall tab sw ns, Forall (fun e => supported tab e = true) (sw_lines sw) ->
  switch_accepted tab sw ns -> exists d, switch_data tab sw = Some d.
Proof.
  intros tab sw ns Fs [Hf [Hr [Hl [Ha [Hi [Ht [Hg [He Hd]]]]]]]]. unfold switch_data.
  unfold mk_bytes at 1. unfold bytesb. cbn [forallb]. unfold byteb.
  assert ((0 <=? 2) && (2 <? 256) && ((0 <=? sw_feature sw) && (sw_feature sw <? 256) && ((0 <=? sw_ref_id sw) && (sw_ref_id sw <? 256) &&
    ((0 <=? (if sw_related sw then 138 else 137)) && ((if sw_related sw then 138 else 137) <? 256) && true))) = true) as ->
    by (destruct (sw_related sw); lia). cbn [bind].
  destruct (lines_total tab (sw_subs sw) (sw_lines sw) ns Hl Ha Hi Ht) as [code Hc]. rewrite Hc. cbn [bind].
  destruct (lines_good unit triv triv_clean tab _ _ _ Fs Hc) as [j [js [-> [Wj [Wjs _]]]]].
  pose proof (mark_seq js j [] Wj Wjs) as Hm. cbn [app] in Hm. rewrite Hm. cbn [bind].
  assert (Rs : exists rs, concat_opt (map range_data (sw_ranges sw)) = Some rs).
  { clear - Hg. induction Hg as [|r rs Hr Hg IH]; cbn [map concat_opt]; [eauto|].
    destruct (range_total r Hr) as [b ->]. destruct IH as [b' ->]. cbn [bind]. eauto. }
  destruct Rs as [rs Rs]. rewrite Rs. cbn [bind]. destruct (ranges_read _ _ [] Rs) as [_ Lr].
  assert (En : len (concat (map entry (sw_ranges sw))) = entries (sw_ranges sw)).
  { clear. unfold entries. induction (sw_ranges sw) as [|r l IH]; [reflexivity|]. cbn [map concat fold_right].
    unfold len in *. rewrite app_length, Nat2Z.inj_add, IH. f_equal. unfold entry. destruct (_ && _); reflexivity. }
  unfold mk_bytes, bytesb. cbn [forallb]. unfold byteb.
  assert (0 <= len rs / 10 < 256).
  { unfold len in *. rewrite Lr. rewrite Nat2Z.inj_mul, Z.mul_comm, Z.div_mul by lia. lia. }
  assert ((0 <=? len rs / 10) && (len rs / 10 <? 256) && true = true) as -> by lia. cbn [bind].
  rewrite pack_H_ok by lia. cbn [bind]. eauto.
Qed.
