(** Property C59: cache keys. *)
From Coq Require Import ZArith List Bool Lia String.
From Verif Require Import Base BaseFacts SpriteModel CacheModel JsonModel JsonProofs PaletteData TreeModel SpecTree TreeProofs.
Import ListNotations.
Open Scope string_scope.
Open Scope list_scope.
Open Scope Z_scope.

(** C59: sprites with one cache key have the same encoding, as long as md5
    does not confuse their fingerprints and the modification time of a file
    tells whether it was changed. *)
Theorem C59_same_key : forall K (md5 : bytes -> K) lib compress this W1 W2 t1 t2 k,
  text this -> file_system W1 -> file_system W2 -> honest_times W1 W2 -> built t1 -> built t2 ->
  (forall j1 j2, fingerprint this W1 t1 = Some j1 -> fingerprint this W2 t2 = Some j2 ->
     md5 (dumps j1) = md5 (dumps j2) -> dumps j1 = dumps j2) ->
  cache_key md5 this W1 t1 = Some k -> cache_key md5 this W2 t2 = Some k ->
  real_data lib compress W1 t1 = real_data lib compress W2 t2.
Proof.
  intros K md5 lib compress this W1 W2 t1 t2 k T F1 F2 H B1 B2 M K1 K2. unfold cache_key in K1, K2.
  destruct (fingerprint this W1 t1) as [j1|] eqn:J1; [|discriminate]. destruct (fingerprint this W2 t2) as [j2|] eqn:J2; [|discriminate].
  cbn [bind] in K1, K2. apply some_inj in K1, K2. apply (same_text_same_data lib compress this W1 W2 t1 t2 j1 j2); auto. apply M; auto. congruence.
Qed.

(** Any number of builds with one cache directory, which may be aborted by an
    exception: a build that succeeds writes exactly what it would write
    without the cache. *)
Theorem C59_builds : forall lib compress md5 this bl,
  text this ->
  (forall b, In b bl -> file_system (b_files b) /\ Forall built (b_sprites b)) ->
  (forall b b', In b bl -> In b' bl -> honest_times (b_files b) (b_files b')) ->
  (forall b b' t t' j j', In b bl -> In b' bl -> In t (b_sprites b) -> In t' (b_sprites b') ->
     fingerprint this (b_files b) t = Some j -> fingerprint this (b_files b') t' = Some j' ->
     md5 (dumps j) = md5 (dumps j') -> dumps j = dumps j') ->
  forall i b vs, nth_error bl i = Some b ->
  nth_error (builds lib compress md5 this empty_disk bl) i = Some (Some vs) ->
  Forall2 (fun t v => real_data lib compress (b_files b) t = Some v) (b_sprites b) vs.
Proof.
  intros lib compress md5 this bl T HB HH HM i b vs N R.
  set (known := flat_map (fun b => map (pair (b_files b)) (b_sprites b)) bl).
  assert (IK : forall W t, In (W, t) known -> exists b, In b bl /\ W = b_files b /\ In t (b_sprites b)).
  { intros W t I. unfold known in I. apply in_flat_map in I as (x & X & I). apply in_map_iff in I as (u & E & U). injection E as <- <-. eauto. }
  apply (builds_spec lib compress md5 this known T) with (bl := bl) (d := empty_disk) (i := i).
  - intros W t I. destruct (IK W t I) as (x & X & -> & Tx). destruct (HB x X) as [F B]. split; [exact F|]. rewrite Forall_forall in B. auto.
  - intros W t W' t' I I'. destruct (IK W t I) as (x & X & -> & Tx). destruct (IK W' t' I') as (x' & X' & -> & Tx'). auto.
  - intros W t W' t' j j' I I'. destruct (IK W t I) as (x & X & -> & Tx). destruct (IK W' t' I') as (x' & X' & -> & Tx'). eauto.
  - intros x t X Tx. unfold known. apply in_flat_map. exists x. split; [exact X|]. now apply in_map.
  - intros k v F. cbn in F; discriminate F.
  - exact N.
  - exact R.
Qed.

(** The sprites that are never cached are the ones made of images in memory. *)
Theorem C59_uncacheable : forall t, (forall K (md5 : bytes -> K) this W, cache_key md5 this W t = None) <-> has_image t.
Proof.
  intros t. rewrite <- no_key_iff. split.
  - intros H. destruct (fp_data t) as [d|] eqn:E; [exfalso|reflexivity].
    specialize (H bytes (fun x => x) [] (fun _ => Some ([48; 46; 48], []))). unfold cache_key, fingerprint in H. rewrite E in H. cbn [bind] in H.
    assert (F : forall ps, exists js, fp_files (fun _ => Some ([48; 46; 48], [])) ps = Some js).
    { induction ps as [|p ps [js IH]]; [eexists; reflexivity|]. cbn [fp_files bind]. rewrite IH. eexists. reflexivity. }
    destruct (F (tree_files [] t)) as [js ->] in H. discriminate.
  - intros E K md5 this W. unfold cache_key, fingerprint. rewrite E. reflexivity.
Qed.

(** A changed modification time of any file changes the key. *)
Theorem C59_touched : forall K (md5 : bytes -> K) this W1 W2 t k p m1 m2 c1 c2,
  text this -> file_system W1 -> file_system W2 -> built t ->
  (forall j1 j2, fingerprint this W1 t = Some j1 -> fingerprint this W2 t = Some j2 ->
     md5 (dumps j1) = md5 (dumps j2) -> dumps j1 = dumps j2) ->
  cache_key md5 this W1 t = Some k -> In p (tree_files this t) -> W1 p = Some (m1, c1) -> W2 p = Some (m2, c2) -> m1 <> m2 ->
  cache_key md5 this W2 t <> Some k.
Proof.
  intros K md5 this W1 W2 t k p m1 m2 c1 c2 T F1 F2 B M K1 I P1 P2 N K2. apply N. unfold cache_key in K1, K2.
  destruct (fingerprint this W1 t) as [j1|] eqn:J1; [|discriminate]. destruct (fingerprint this W2 t) as [j2|] eqn:J2; [|discriminate].
  cbn [bind] in K1, K2. apply some_inj in K1, K2. specialize (M j1 j2 eq_refl eq_refl ltac:(congruence)).
  apply dumps_inj in M; [|exact (fingerprint_wf this W1 t j1 T F1 B J1)|exact (fingerprint_wf this W2 t j2 T F2 B J2)].
  unfold fingerprint in J1, J2. destruct (fp_data t) as [d|]; [cbn [bind] in J1, J2|discriminate].
  destruct (fp_files W1 _) as [fs1|] eqn:G1; [cbn [bind] in J1|discriminate]. destruct (fp_files W2 _) as [fs2|] eqn:G2; [cbn [bind] in J2|discriminate].
  apply some_inj in J1, J2. subst j1 j2.
  assert (ND : forall (a b : json), NoDup (map fst [(bs "data", a); (bs "files", b)])) by (intros; nodup_keys).
  pose proof (field_eq _ _ (ND _ _) (ND _ _) M (bs "files") _ _ eq_refl eq_refl) as EF. cbn [snd] in EF.
  apply fp_files_times in G1 as (l1 & T1 & ->). apply fp_files_times in G2 as (l2 & T2 & ->).
  cbn [sorted_json] in EF. injection EF as EF. apply files_json_inj in EF. subst l2.
  clear - I P1 P2 T1 T2. revert l1 T1 T2. induction (tree_files this t) as [|q ps IH]; intros l T1 T2; [destruct I|].
  apply times_cons in T1 as (a1 & b1 & r1 & A1 & T1 & ->). apply times_cons in T2 as (a2 & b2 & r2 & A2 & T2 & E). injection E as <- <-.
  destruct I as [-> | I]; [congruence|]. eapply IH; eauto.
Qed.

(** Every file a sprite reads is in the list the key looks at. *)
Theorem C59_files_listed : forall lib this W1 W2 t,
  (forall p, In p (tree_files this t) -> W1 p = W2 p) -> get_layers lib W1 t = get_layers lib W2 t.
Proof.
  intros lib this W1 W2 t. assert (Q : (forall p, In p (tree_files this t) -> W1 p = W2 p) -> get_layers lib W1 t = get_layers lib W2 t /\ get_image lib W1 t = get_image lib W2 t).
  { induction t as [a p ck x y kw|a im| |a s IHs m IHm mode|a s IHs|a s IHs]; cbn [tree_files get_layers get_image]; intros H.
    - unfold file_image. rewrite (H p) by (right; now left). auto.
    - auto.
    - auto.
    - destruct IHs as [-> _]; [intros; apply H; right; right; apply in_or_app; now left|]. destruct IHm as [-> _]; [intros; apply H; right; right; apply in_or_app; now right|]. auto.
    - destruct IHs as [-> _]; [intros; apply H; right; right; assumption|]. auto.
    - destruct IHs as [_ ->]; [intros; apply H; right; right; assumption|]. auto. }
  intros H. apply (Q H).
Qed.

(** Not so when attributes are assigned after construction: the key of a
    WithMask does not see its own offsets, so an old cache entry is used. *)
Theorem C59_assigned_refuted : exists t1 t2 W this (lib : pil),
  built t1 /\ (exists a s m mode, t1 = TMask a s m mode /\ t2 = TMask (mk_attrs (a_w a) (a_h a) 7 (a_yofs a) (a_zoom a) (a_bpp a) (a_crop a)) s m mode)
  /\ fingerprint this W t1 = fingerprint this W t2 /\ fingerprint this W t1 <> None
  /\ (forall compress, real_data lib compress W t1 <> real_data lib compress W t2).
Proof.
  destruct (new_mask TEmpty TEmpty 0) as [t|] eqn:E; [|discriminate].
  exists t. cbn in E. apply some_inj in E. subst t. eexists. exists (fun _ => Some ([48; 46; 48], [])), [],
    (mk_pil (fun _ => None) (fun i => i) (fun i => i) (fun _ => []) (fun _ => 0)).
  split; [eapply B_mask; [apply B_empty|apply B_empty|reflexivity]|].
  split; [do 4 eexists; split; reflexivity|]. split; [reflexivity|]. split; [discriminate|].
  intros compress. cbv - [Z.add app]. intros E. apply some_inj in E. discriminate E.
Qed.

(** Concrete cases: a masked, moved sprite of two files; touching the second
    file gives another fingerprint, and the second of two builds takes the
    bytes from the cache. *)
Definition ex_pil : pil :=
  mk_pil (fun d => match d with [b] => Some (mk_image 8 1 1 PIL_PALETTE [[[b]]]) | _ => None end)
         (fun i => i) (fun i => i) (fun _ => []) (fun _ => 0).
Definition ex_world (m : bytes) (v : Z) : world :=
  fun p => match p with [97] => Some (bs "1.0", [5]) | [98] => Some (m, [v]) | [46] => Some (bs "0.5", []) | _ => None end.
Definition ex_file (p : bytes) : tree := TFile (mk_attrs None None 0 0 0 None true) p None 0 0 [].
Definition ex_tree : tree :=
  new_move (TMask (mk_attrs None None 0 0 0 None true) (ex_file [97]) (ex_file [98]) 0) 3 4.
Example C59_case_built : built ex_tree.
Proof.
  apply B_move. apply (B_mask (ex_file [97]) (ex_file [98]) 0); [| |reflexivity].
  - apply (B_file [97] None 0 0 (mk_attrs None None 0 0 0 None true) []); [repeat constructor; lia|constructor|reflexivity].
  - apply (B_file [98] None 0 0 (mk_attrs None None 0 0 0 None true) []); [repeat constructor; lia|constructor|reflexivity].
Qed.
Example C59_case_world : file_system (ex_world (bs "2.0") 6).
Proof.
  intros p m c H. unfold ex_world in H.
  assert (Q : forall d1 d2, 48 <= d1 <= 57 -> 48 <= d2 <= 57 -> float_repr [d1; 46; d2]).
  { intros d1 d2 D1 D2. split; [exists d1, [46; d2]; split; [reflexivity|now left]|]. split; [|left; right; now left].
    constructor; [now left|]. constructor; [right; now left|]. constructor; [now left|constructor]. }
  repeat match type of H with context [match ?x with _ => _ end] => destruct x; try discriminate H end;
    injection H as <- <-; apply Q; cbv; split; discriminate.
Qed.
Example C59_case_honest : honest_times (ex_world (bs "2.0") 6) (ex_world (bs "3.0") 7).
Proof.
  intros p m c1 c2 A B. unfold ex_world in *.
  repeat match type of A with context [match ?x with _ => _ end] => destruct x; try discriminate A end;
    injection A as <- <-; injection B; intros; subst; try reflexivity; discriminate.
Qed.
Example C59_case_differ : exists j1 j2, fingerprint [46] (ex_world (bs "2.0") 6) ex_tree = Some j1
  /\ fingerprint [46] (ex_world (bs "3.0") 7) ex_tree = Some j2 /\ dumps j1 <> dumps j2.
Proof. do 2 eexists. split; [reflexivity|]. split; [reflexivity|]. vm_compute. intros H. discriminate H. Qed.
Example C59_case_data : exists b, real_data ex_pil (fun d => d) (ex_world (bs "2.0") 6) ex_tree = Some b /\ In 6 b.
Proof. eexists. split; [reflexivity|]. vm_compute. tauto. Qed.

Print Assumptions C59_same_key.
Print Assumptions C59_builds.
Print Assumptions C59_uncacheable.
Print Assumptions C59_touched.
Print Assumptions C59_files_listed.
Print Assumptions C59_assigned_refuted.
