(** Property C85: files are prepared before they are read. *)
From Coq Require Import ZArith List Bool Lia String.
From Verif Require Import Base BaseFacts CacheModel JsonModel TreeModel PrepareModel.
Import ListNotations.
Open Scope string_scope.
Open Scope list_scope.
Open Scope Z_scope.

(** ---- specification ---- *)

(** Every file read was prepared before, for the same arguments. *)
Definition prepared_first (calls : list call) : Prop :=
  forall before r after, calls = before ++ Read r :: after -> In (Prepare r) before.
(** No WithMask in the sprite. *)
Fixpoint maskless (t : tree) : Prop :=
  match t with
  | TMask _ _ _ _ => False
  | TMove _ s | TQuant _ s => maskless s
  | _ => True
  end.
(** Every sprite in the index of the cache has its file. *)
Definition complete (d : disk) : Prop := forall l k, d_index d = Some l -> In k l -> d_files d k <> None.

(** ---- proofs ---- *)

Lemma reads_prepared t : maskless t -> forall r, In (Read r) (real_data_calls t) -> In (Prepare r) (prepare_files t).
Proof.
  induction t as [a p ck x y kw|a im| |a s IHs m IHm mode|a s IHs|a s IHs]; cbn [maskless real_data_calls prepare_files]; intros M r; auto; try tauto.
  intros [E | []]. injection E as ->. now left.
Qed.
Lemma no_prepare_reads t r : ~ In (Prepare r) (real_data_calls t).
Proof.
  induction t as [a p ck x y kw|a im| |a s IHs m IHm mode|a s IHs|a s IHs]; cbn [real_data_calls]; auto.
  - intros [E | []]; discriminate.
  - rewrite in_app_iff. tauto.
Qed.
Lemma no_read_prepares t r : ~ In (Read r) (prepare_files t).
Proof.
  induction t as [a p ck x y kw|a im| |a s IHs m IHm mode|a s IHs|a s IHs]; cbn [prepare_files]; auto.
  intros [E | []]; discriminate.
Qed.
Lemma kmem_in k l : kmem k l = true <-> In k l.
Proof.
  unfold kmem. rewrite existsb_exists. split; [intros (x & I & E); apply PeanoNat.Nat.eqb_eq in E; now subst|].
  intros I. exists k. split; [exact I|apply PeanoNat.Nat.eqb_refl].
Qed.

(** What the first pass prepares, and that it reads nothing. *)
Lemma preprocess_in md5 this W c : forall ts p, preprocess md5 this W c ts = Some p ->
  (forall r, ~ In (Read r) p) /\
  (forall t x, In t ts -> In x (prepare_files t) -> (forall k, cache_key md5 this W t = Some k -> is_cached c k = false) -> In x p) /\
  (forall x, In x p -> exists t, In t ts /\ In x (prepare_files t) /\ forall k, fp_data t <> None -> cache_key md5 this W t = Some k -> is_cached c k = false).
Proof.
  induction ts as [|t ts IH]; cbn [preprocess]; intros p E.
  - apply some_inj in E. subst p. repeat split; [intros r []|intros t x []|intros x []].
  - set (q := match fp_data t with None => _ | Some _ => _ end) in E. destruct q as [p1|] eqn:Q; [cbn [bind] in E|discriminate].
    destruct (preprocess md5 this W c ts) as [p2|]; [cbn [bind] in E|discriminate]. apply some_inj in E. subst p.
    destruct (IH p2 eq_refl) as (R & P & O).
    assert (C : (p1 = prepare_files t /\ forall k, fp_data t <> None -> cache_key md5 this W t = Some k -> is_cached c k = false) \/
                (p1 = [] /\ exists k, cache_key md5 this W t = Some k /\ is_cached c k = true)).
    { unfold q in Q. destruct (fp_data t) as [j|].
      - destruct (cache_key md5 this W t) as [k|]; [cbn [bind] in Q|discriminate]. apply some_inj in Q. destruct (is_cached c k) eqn:K; subst p1.
        + right. split; [reflexivity|]. exists k. auto.
        + left. split; [reflexivity|]. intros k' _ E. apply some_inj in E. now subst.
      - apply some_inj in Q. subst p1. left. split; [reflexivity|]. intros k H. now destruct H. }
    split; [|split].
    + intros r I. apply in_app_or in I as [I | I]; [|exact (R r I)]. destruct C as [[-> _] | [-> _]]; [exact (no_read_prepares t r I)|destruct I].
    + intros u x [<- | I] X N; apply in_or_app.
      * left. destruct C as [[-> _] | [_ (k & K & H)]]; [exact X|]. rewrite (N k K) in H. discriminate.
      * right. exact (P u x I X N).
    + intros x I. apply in_app_or in I as [I | I].
      * destruct C as [[-> N] | [-> _]]; [|destruct I]. exists t. split; [now left|]. auto.
      * destruct (O x I) as (u & U & H). exists u. split; [now right|exact H].
Qed.

(** The second pass reads only for sprites the cache did not have. *)
Lemma encode_in data md5 this W c0 d0 : (forall k, is_cached c0 k = true -> d_files d0 k <> None) -> forall ts d c,
  (forall k, is_cached c0 k = true -> is_cached c k = true /\ d_files d k <> None) ->
  forall r, In (Read r) (encode_calls data md5 this W d c ts) ->
  exists t, In t ts /\ In (Read r) (real_data_calls t) /\ forall k, fp_data t <> None -> cache_key md5 this W t = Some k -> is_cached c0 k = false.
Proof.
  intros H0. induction ts as [|t ts IH]; cbn [encode_calls]; intros d c H r I; [destruct I|].
  assert (TL : forall d c, (forall k, is_cached c0 k = true -> is_cached c k = true /\ d_files d k <> None) ->
    In (Read r) (encode_calls data md5 this W d c ts) -> exists t', In t' (t :: ts) /\ In (Read r) (real_data_calls t') /\
      forall k, fp_data t' <> None -> cache_key md5 this W t' = Some k -> is_cached c0 k = false).
  { intros d' c' H' I'. destruct (IH d' c' H' r I') as (u & U & V). exists u. split; [now right|exact V]. }
  destruct (fp_data t) as [j|] eqn:F.
  - destruct (cache_key md5 this W t) as [k|] eqn:K; [|destruct I].
    destruct (cache_get d c k) as [c1 [v|]] eqn:G.
    + unfold cache_get in G. destruct (kmem k (c_index c)) eqn:M; [|discriminate]. apply pair_inj in G as [<- G]. eapply TL; [|exact I].
      intros k' H'. cbn [is_cached c_index]. apply (H k' H').
    + assert (N : is_cached c0 k = false /\ c_index c1 = c_index c).
      { unfold cache_get in G. destruct (kmem k (c_index c)) eqn:M; apply pair_inj in G as [<- G].
        - split; [|reflexivity]. destruct (is_cached c0 k) eqn:Q; [|reflexivity]. destruct (H k Q) as [_ N]. congruence.
        - split; [|reflexivity]. destruct (is_cached c0 k) eqn:Q; [|reflexivity]. destruct (H k Q) as [N _]. unfold is_cached in N. congruence. }
      destruct N as [N CI]. unfold cache_set in I. apply in_app_or in I as [I | I].
      * exists t. split; [now left|]. split; [exact I|]. intros k' _ E. rewrite K in E. apply some_inj in E. now subst k'.
      * eapply TL; [|exact I]. intros k' H'. destruct (H k' H') as [A B]. unfold is_cached in *. cbn [c_index d_files]. rewrite CI. split.
        -- destruct (kmem k (c_index c)); [exact A|]. apply kmem_in. right. now apply kmem_in.
        -- unfold kset. destruct (Nat.eqb k' k); [discriminate|exact B].
  - apply in_app_or in I as [I | I].
    + exists t. split; [now left|]. split; [exact I|]. congruence.
    + apply (TL d c); assumption.
Qed.

Lemma loaded_complete d clean : complete d -> forall k, is_cached (cache_load d clean) k = true -> d_files d k <> None.
Proof.
  intros C k H. unfold is_cached, cache_load in H. cbn [c_index] in H. destruct clean; [discriminate|].
  destruct (d_index d) as [l|] eqn:E; [|discriminate]. apply kmem_in in H. exact (C l k E H).
Qed.

(** C85: a build prepares every file before it reads it, with masks excepted
    and a cache that lost no file; any sprites, any order, anything cached. *)
Theorem C85_prepared_first_partial : forall data md5 this W d clean listed written calls,
  complete d -> (forall t, In t written -> In t listed) -> (forall t, In t listed -> maskless t) ->
  build_calls data md5 this W d clean listed written = Some calls -> prepared_first calls.
Proof.
  intros data md5 this W d clean listed written calls C O M E before r after S. unfold build_calls in E.
  set (c := cache_load d clean) in E. destruct (preprocess md5 this W c listed) as [p|] eqn:P; [cbn [bind] in E|discriminate]. apply some_inj in E. subst calls.
  destruct (preprocess_in md5 this W c listed p P) as (R & PI & _).
  assert (I : In (Read r) (encode_calls data md5 this W d c written)).
  { assert (I : In (Read r) (p ++ encode_calls data md5 this W d c written)) by (rewrite S; apply in_or_app; right; now left).
    apply in_app_or in I as [I | I]; [destruct (R r I)|exact I]. }
  pose proof (loaded_complete d clean C) as H0. fold c in H0.
  destruct (encode_in data md5 this W c d H0 written d c (fun k K => conj K (H0 k K)) r I) as (t & T & TR & N).
  assert (PP : In (Prepare r) p).
  { apply (PI t (Prepare r) (O t T)); [apply reads_prepared; auto|]. intros k K. apply N; [|exact K]. intros F. unfold cache_key, fingerprint in K. rewrite F in K. discriminate. }
  (* the first pass comes first *)
  assert (Q : exists post, before = p ++ post).
  { clear - S R. revert before S R. induction p as [|x p IH]; intros before S R; [exists before; reflexivity|].
    destruct before as [|b before]; cbn [app] in S; injection S as -> S.
    - exfalso. apply (R r). now left.
    - destruct (IH before S) as [post ->]; [intros r' I; apply (R r'); now right|]. exists post. reflexivity. }
  destruct Q as [post ->]. apply in_or_app. now left.
Qed.

(** What the cache has is neither prepared nor read: each call is for a sprite
    of the file that the cache did not have. *)
Theorem C85_cached_untouched : forall data md5 this W d clean listed written calls r,
  complete d -> build_calls data md5 this W d clean listed written = Some calls -> In (Prepare r) calls \/ In (Read r) calls ->
  exists t, In t (listed ++ written) /\ (In (Prepare r) (prepare_files t) \/ In (Read r) (real_data_calls t)) /\
    (forall k l, cache_key md5 this W t = Some k -> clean = false -> d_index d = Some l -> ~ In k l).
Proof.
  intros data md5 this W d clean listed written calls r C E I. unfold build_calls in E.
  set (c := cache_load d clean) in E. destruct (preprocess md5 this W c listed) as [p|] eqn:P; [cbn [bind] in E|discriminate]. apply some_inj in E. subst calls.
  destruct (preprocess_in md5 this W c listed p P) as (R & _ & PO).
  pose proof (loaded_complete d clean C) as H0. fold c in H0.
  assert (NK : forall t k l, (forall k, fp_data t <> None -> cache_key md5 this W t = Some k -> is_cached c k = false) ->
    cache_key md5 this W t = Some k -> clean = false -> d_index d = Some l -> ~ In k l).
  { intros t k l N K -> L I'. assert (F : fp_data t <> None). { intros F. unfold cache_key, fingerprint in K. rewrite F in K. discriminate. }
    specialize (N k F K). unfold c, is_cached, cache_load in N. cbn [c_index] in N. rewrite L in N. apply kmem_in in I'. congruence. }
  assert (EP : forall ts d c x, In (Prepare x) (encode_calls data md5 this W d c ts) -> False).
  { induction ts as [|t ts IH]; cbn [encode_calls]; intros d' c' x J; [destruct J|]. destruct (fp_data t).
    - destruct (cache_key md5 this W t); [|destruct J]. destruct (cache_get d' c' k) as [c1 [v|]]; [eauto|]. unfold cache_set in J.
      apply in_app_or in J as [J | J]; [exact (no_prepare_reads _ _ J)|eauto].
    - apply in_app_or in J as [J | J]; [exact (no_prepare_reads _ _ J)|eauto]. }
  destruct I as [I | I]; apply in_app_or in I as [I | I].
  - destruct (PO _ I) as (t & T & X & N). exists t. split; [apply in_or_app; now left|]. split; [now left|]. intros k l. exact (NK t k l N).
  - destruct (EP _ _ _ _ I).
  - destruct (R r I).
  - destruct (encode_in data md5 this W c d H0 written d c (fun k K => conj K (H0 k K)) r I) as (t & T & X & N).
    exists t. split; [apply in_or_app; now right|]. split; [now right|]. intros k l. exact (NK t k l N).
Qed.

(** A clean build prepares every file of every sprite without a mask. *)
Theorem C85_clean_build : forall data md5 this W d listed written calls t x,
  build_calls data md5 this W d true listed written = Some calls -> In t listed -> In x (prepare_files t) -> In x calls.
Proof.
  intros data md5 this W d listed written calls t x E T X. unfold build_calls in E.
  destruct (preprocess md5 this W (cache_load d true) listed) as [p|] eqn:P; [cbn [bind] in E|discriminate]. apply some_inj in E. subst calls.
  apply in_or_app. left. destruct (preprocess_in _ _ _ _ _ _ P) as (_ & PI & _). apply (PI t x T X). reflexivity.
Qed.

(** ---- where it fails ---- *)

Definition ex_attrs : attrs := mk_attrs None None 0 0 0 None true.
Definition ex_sprite (p : bytes) : tree := TFile ex_attrs p None 0 0 [].
Definition ex_files : world := fun _ => Some ([48; 46; 53], []).
(** The files of a WithMask are read and never prepared. *)
Theorem C85_mask_refuted : forall data md5 this s m mode t calls,
  new_mask (ex_sprite s) (ex_sprite m) mode = Some t -> build_calls data md5 this ex_files empty_disk false [t] [t] = Some calls ->
  In (Read (s, [])) calls /\ In (Read (m, [])) calls /\ forall r, ~ In (Prepare r) calls.
Proof.
  intros data md5 this s m mode t calls E B. cbn in E. apply some_inj in E. subst t. cbn in B. apply some_inj in B. subst calls.
  split; [now left|]. split; [right; now left|]. intros r [H | [H | []]]; discriminate.
Qed.
(** A sprite that is in the index of the cache while its file is gone is read
    without being prepared. *)
Theorem C85_lost_cache_file_refuted : forall data md5 this p k calls,
  cache_key md5 this ex_files (ex_sprite p) = Some k ->
  build_calls data md5 this ex_files (mkDisk (Some [k]) (fun _ => None)) false [ex_sprite p] [ex_sprite p] = Some calls ->
  calls = [Read (p, [])].
Proof.
  intros data md5 this p k calls K B. unfold build_calls in B.
  assert (M : forall o n, kmem k (c_index (mkCache o [k] n)) = true) by (intros; apply kmem_in; now left).
  unfold cache_load in B. cbn [d_index] in B. cbn [preprocess] in B. rewrite K in B.
  destruct (fp_data (ex_sprite p)) as [j|] eqn:F; [|discriminate F].
  cbn [bind] in B. unfold is_cached in B. rewrite M in B. cbn [bind app] in B. apply some_inj in B. subst calls.
  cbn [encode_calls]. rewrite F, K. unfold cache_get. rewrite M. cbn [d_files]. unfold cache_set. reflexivity.
Qed.

(** Concrete cases. *)
Definition ex_md5 (b : bytes) : key := Z.to_nat (fold_left (fun a x => (a * 31 + x) mod 251) b 0).
Example C85_case : exists k, cache_key ex_md5 [46] ex_files (ex_sprite [98]) = Some k /\
  build_calls (fun _ => []) ex_md5 [46] ex_files (mkDisk (Some [k]) (fun _ => Some [])) false
    [new_move (ex_sprite [97]) 1 2; ex_sprite [98]] [ex_sprite [98]; new_move (ex_sprite [97]) 1 2] = Some [Prepare ([97], []); Read ([97], [])]
  /\ complete (mkDisk (Some [k]) (fun _ => Some [])).
Proof.
  exists (match cache_key ex_md5 [46] ex_files (ex_sprite [98]) with Some k => k | None => 0%nat end).
  split; [vm_compute; reflexivity|]. split; [vm_compute; reflexivity|]. intros l k' L I. discriminate.
Qed.

Print Assumptions C85_prepared_first_partial.
Print Assumptions C85_cached_untouched.
Print Assumptions C85_clean_build.
Print Assumptions C85_mask_refuted.
Print Assumptions C85_lost_cache_file_refuted.
