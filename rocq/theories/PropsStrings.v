(** Properties C35 and C55: string ids and string compilation. *)
From Coq Require Import ZArith List Bool Lia String.
From Verif Require Import Base BaseFacts RecordsModel StringsModel SpecStrings StringsProofs.
Import ListNotations.
Open Scope Z_scope.

(** C35, texts: add(text) always succeeds; its reference stands for a name that
    has exactly that text from then on; equal texts give equal references and
    different texts different names; a text added under a name of its own is
    the text of that name. *)
Theorem C35_texts : forall hname ops m tr, own_names ops -> srun hname new_smgr ops = (m, tr) ->
  (forall t x, In (OAdd t, x) tr -> exists n, x = RRef (mkRef (EIdent n) (hname n)) /\ dict_get String.eqb (m_default m) n = Some t) /\
  (forall t u n, In (OAdd t, RRef (mkRef (EIdent n) (hname n))) tr -> In (OAdd u, RRef (mkRef (EIdent n) (hname n))) tr -> t = u) /\
  (forall t n a b, In (OAdd t, RRef (mkRef (EIdent n) a)) tr -> In (OAdd t, b) tr -> b = RRef (mkRef (EIdent n) a)) /\
  (forall t n r, In (ONamed t n, RRef r) tr -> r = mkRef (EIdent n) (hname n) /\ dict_get String.eqb (m_default m) n = Some t).
Proof. exact add_spec. Qed.

(** C35, ids: two registrations get the same id exactly if the references have
    the same hash. *)
Theorem C35_ids : forall hname ops m tr, own_names ops -> srun hname new_smgr ops = (m, tr) ->
  (forall r s i j, In (OGlobal r, RId i) tr -> In (OGlobal s, RId j) tr -> (i = j <-> r_hash r = r_hash s)) /\
  (forall r s i j, In (OPersistent r, RId i) tr -> In (OPersistent s, RId j) tr -> (i = j <-> r_hash r = r_hash s)).
Proof. exact ids_equal. Qed.

(** C35, definitions: with at most 3072 global and 9216 persistent strings, and
    no colliding hashes, what the file defines for a string id (0xd000 + id for
    a global one, the id for a persistent one), in any language, is exactly the
    translations of the reference that got the id. *)
Theorem C35_defined_partial : forall hname render ops m tr, own_names ops -> srun hname new_smgr ops = (m, tr) ->
  no_collision (globals_of ops) -> no_collision (persistents_of ops) ->
  hashes (globals_of ops) <= 3072 -> hashes (persistents_of ops) <= 9216 ->
  (forall r, In r (globals_of ops ++ persistents_of ops) -> render (m_default m) (string_expr r) <> None) ->
  exists pa ga, get_persistent_actions render m = Some pa /\ get_actions render m = Some ga /\
  (forall r x, In (OGlobal r, x) tr -> exists i p, x = RId i /\ 0 <= i < 3072 /\ render (m_default m) (string_expr r) = Some p /\
     definitions (pa ++ ga) (53248 + i) = map (fun e => (fst e, [snd e])) p) /\
  (forall r x, In (OPersistent r, x) tr -> exists i p, x = RId i /\ 56320 <= i < 65536 /\ render (m_default m) (string_expr r) = Some p /\
     definitions (pa ++ ga) i = map (fun e => (fst e, [snd e])) p).
Proof. exact strings_spec. Qed.

(** What is missing: the manager does not stop at 0xdc00, so the 3073rd global
    string has the string id of the first persistent one. *)
Definition exs_ref (k : nat) : sref := mkRef (EIdent (auto_name k)) (Z.of_nat k).
Definition exs_per : sref := mkRef (EIdent "P") 7000.
Definition exs_ops : list sop := OPersistent exs_per :: map (fun k => OGlobal (exs_ref k)) (seq 0 3073).
Definition exs_render (_ : list (string * string)) (e : expr) : option (list (Z * bytes)) :=
  Some [(127, match e with EString n _ => [Z.of_nat (String.length n)] | _ => [] end)].
Lemma exs_new : forall k j, (j <= k)%nat -> dict_get Z.eqb (map (fun i => (Z.of_nat i, (Z.of_nat i, exs_ref i))) (seq 0 j)) (Z.of_nat k) = None.
Proof.
  intros k j. enough (forall a, (a + j <= k)%nat -> dict_get Z.eqb (map (fun i => (Z.of_nat i, (Z.of_nat i, exs_ref i))) (seq a j)) (Z.of_nat k) = None) by (intros; apply H; lia).
  induction j as [|j IH]; intros a L; [reflexivity|]. cbn [seq map dict_get]. rewrite (proj2 (Z.eqb_neq (Z.of_nat k) (Z.of_nat a))) by lia. apply IH. lia.
Qed.
Lemma exs_snoc : forall (l : list (Z * (Z * sref))) k v, dict_get Z.eqb l k = None -> dict_set Z.eqb l k v = l ++ [(k, v)].
Proof.
  induction l as [|[a b] l IH]; intros k v H; [reflexivity|]. cbn [dict_get] in H. cbn [dict_set List.app]. destruct (Z.eqb k a); [discriminate|]. now rewrite IH.
Qed.
Lemma exs_run : forall n k m, m_globals m = map (fun i => (Z.of_nat i, (Z.of_nat i, exs_ref i))) (seq 0 k) ->
  exists m', srun (fun _ => 0) m (map (fun k => OGlobal (exs_ref k)) (seq k n)) = (m', map (fun k => (OGlobal (exs_ref k), RId (Z.of_nat k))) (seq k n)) /\
    m_globals m' = map (fun i => (Z.of_nat i, (Z.of_nat i, exs_ref i))) (seq 0 (k + n)) /\ m_persistents m' = m_persistents m.
Proof.
  induction n as [|n IH]; intros k m G.
  - exists m. rewrite Nat.add_0_r. repeat split. exact G.
  - cbn [seq map srun sstep]. unfold add_global. rewrite G. cbn [r_hash exs_ref]. rewrite exs_new by lia.
    rewrite exs_snoc by (apply exs_new; lia). replace (len (map (fun i => (Z.of_nat i, (Z.of_nat i, exs_ref i))) (seq 0 k))) with (Z.of_nat k)
      by (unfold len; now rewrite map_length, seq_length).
    destruct (IH (S k) (mkSM (map (fun i => (Z.of_nat i, (Z.of_nat i, exs_ref i))) (seq 0 k) ++ [(Z.of_nat k, (Z.of_nat k, exs_ref k))])
       (m_persistents m) (m_default m) (m_next_string m) (m_named m))) as (m' & R & G' & P').
    { cbn [m_globals]. rewrite seq_S, map_app. reflexivity. }
    exists m'. rewrite R. split; [reflexivity|]. split; [rewrite G'; do 2 f_equal; lia|exact P'].
Qed.
Lemma exs_actions : forall m b l, (forall h i r, In (h, (i, r)) l -> 53248 <= b + i < 65536) ->
  exists a, all_actions exs_render m b l = Some a /\
    forall h i r, In (h, (i, r)) l -> In (mkA4 0 127 (b + i) true [match string_expr r with EString n _ => [Z.of_nat (String.length n)] | _ => [] end]) a.
Proof.
  intros m b. induction l as [|[h [i r]] l IH]; intros H; [exists []; split; [reflexivity|intros ? ? ? []]|].
  destruct IH as (a & E & I); [intros; eapply H; right; eauto|]. cbn [all_actions]. unfold ref_actions, exs_render at 1. cbn [bind].
  pose proof (H h i r (or_introl eq_refl)) as B.
  assert (C : action4_ctor (mkA4 0 127 (b + i) true []) = true) by (unfold action4_ctor; cbn; lia).
  rewrite C. fold exs_render. rewrite E. cbn [bind map fst snd List.app]. eexists. split; [reflexivity|].
  intros h' i' r' [X|X]; [|right; eauto]. injection X as <- <- <-. now left.
Qed.
Theorem C35_overflow_refuted : exists m tr pa ga x y, srun (fun _ => 0) new_smgr exs_ops = (m, tr) /\ own_names exs_ops /\
  get_persistent_actions exs_render m = Some pa /\ get_actions exs_render m = Some ga /\
  In (OPersistent exs_per, RId 56320) tr /\ In (OGlobal (exs_ref 3072), RId 3072) tr /\
  In (mkA4 0 127 56320 true [x]) pa /\ In (mkA4 0 127 56320 true [y]) ga /\ x <> y.
Proof.
  unfold exs_ops. cbn [srun sstep]. unfold add_persistent. cbn [new_smgr m_persistents dict_get].
  set (m0 := mkSM _ _ _ _ _). destruct (exs_run 3073 0 m0 eq_refl) as (m & R & G & P). rewrite R. rewrite Nat.add_0_l in G.
  destruct (exs_actions m 0 (m_persistents m)) as (pa & EP & IP).
  { rewrite P. intros h i r [X|[]]. injection X as <- <- <-. cbn. lia. }
  destruct (exs_actions m 53248 (m_globals m)) as (ga & EG & IG).
  { rewrite G. intros h i r X. apply in_map_iff in X as (k & X & K). injection X as <- <- <-. apply in_seq in K. lia. }
  exists m, ((OPersistent exs_per, RId 56320) :: map (fun k => (OGlobal (exs_ref k), RId (Z.of_nat k))) (seq 0 3073)), pa, ga, [1], [10].
  split; [reflexivity|]. split.
  { intros t n k [H|H]; [discriminate|]. apply in_map_iff in H as (x & H & _). discriminate. }
  split; [exact EP|]. split; [exact EG|]. split; [now left|]. assert (K : In 3072%nat (seq 0 3073)) by (apply in_seq; lia).
  split; [right; apply in_map_iff; exists 3072%nat; split; [reflexivity|exact K]|].
  split; [apply (IP 7000 56320 exs_per); rewrite P; now left|]. split; [|discriminate].
  apply (IG (Z.of_nat 3072) (Z.of_nat 3072) (exs_ref 3072)). rewrite G. apply in_map_iff. exists 3072%nat. split; [reflexivity|exact K].
Qed.
(** Only hashes are compared: a collision gives one text the id of another. *)
Theorem C35_collision_refuted : exists r s, string_expr r <> string_expr s /\
  snd (srun (fun _ => 0) new_smgr [OGlobal r; OGlobal s]) = [(OGlobal r, RId 0); (OGlobal s, RId 0)].
Proof. exists (mkRef (EIdent "a") 1), (mkRef (EIdent "b") 1). split; [discriminate|reflexivity]. Qed.
(** A name of the automatic form taken by the user makes the next automatic
    text fail, and the same call repeated returns the user's text. *)
Theorem C35_auto_name_refuted : exists m, let ops := [ONamed "mine" "GRFPY_1"; OAdd "other"; OAdd "other"]%string in
  srun (fun _ => 0) new_smgr ops = (m, [(ONamed "mine" "GRFPY_1", RRef (mkRef (EIdent "GRFPY_1") 0)); (OAdd "other", RFail);
    (OAdd "other", RRef (mkRef (EIdent "GRFPY_1") 0))])%string /\ dict_get String.eqb (m_default m) "GRFPY_1"%string = Some "mine"%string.
Proof. eexists. vm_compute. split; reflexivity. Qed.

(** A case. *)
Definition exs_hash (n : string) : Z := Z.of_nat (String.length n).
Example C35_case : let ops := [OAdd "x"; ONamed "y" "NAME"; OGlobal (mkRef (EIdent "GRFPY_1") 7); OPersistent (mkRef (EIdent "NAME") 4); OAdd "x";
    OGlobal (mkRef (EIdent "NAME") 4); OGlobal (mkRef (EIdent "GRFPY_1") 7)]%string in
  own_names ops /\ no_collision (globals_of ops) /\ no_collision (persistents_of ops) /\
  map snd (snd (srun exs_hash new_smgr ops)) =
    [RRef (mkRef (EIdent "GRFPY_1") 7); RRef (mkRef (EIdent "NAME") 4); RId 0; RId 56320; RRef (mkRef (EIdent "GRFPY_1") 7); RId 1; RId 0]%string.
Proof.
  split; [|split; [|split; [|reflexivity]]].
  - intros t n k H. cbn in H. destruct H as [H|[H|[H|[H|[H|[H|[H|[]]]]]]]]; try discriminate. injection H as <- <-. unfold auto_name. discriminate.
  - intros a b A B. cbn in A, B. destruct A as [<-|[<-|[<-|[]]]]; destruct B as [<-|[<-|[<-|[]]]]; try reflexivity; discriminate.
  - intros a b A B. cbn in A, B. destruct A as [<-|[]]; destruct B as [<-|[]]. reflexivity.
Qed.

(** C55: a string made of ordinary characters and escapes compiles to the
    concatenation of the bytes they stand for, after the UTF-8 marker if the
    string is not plain ASCII. *)
Theorem C55_compile : forall ascii ps b, pieces_bytes ps b ->
  compile_string ascii (flat_map piece_src ps) = Some ((if ascii (flat_map piece_src ps) then [] else [195; 158]) ++ b).
Proof.
  intros ascii ps b H. unfold compile_string. rewrite (compile_fwd ps b H) by lia. reflexivity.
Qed.
(** A case: a, backslash backslash, U+20AC, byte 0x9f, U+1F600 itself. *)
Example C55_case : pieces_bytes [PChar 97; PQuote 92; PUni 50 48 97 67; PHex 57 102; PChar 128512] [97; 92; 226; 130; 172; 159; 240; 159; 152; 128] /\
  compile_string (fun _ => false) (flat_map piece_src [PChar 97; PQuote 92; PUni 50 48 97 67; PHex 57 102; PChar 128512])
    = Some [195; 158; 97; 92; 226; 130; 172; 159; 240; 159; 152; 128].
Proof.
  split; [|reflexivity].
  apply (pbs_cons _ _ [97]); [constructor; [lia|constructor; lia]|].
  apply (pbs_cons _ _ [92]); [constructor; auto|].
  apply (pbs_cons _ _ [226; 130; 172]).
  { apply (pb_uni _ _ _ _ 2 0 10 12); [apply (hv_dec 2); lia|apply (hv_dec 0); lia|apply (hv_low 10); lia|apply (hv_up 12); lia|].
    apply (u8_3 2 2 44); lia. }
  apply (pbs_cons _ _ [159]); [apply (pb_hex _ _ 9 15); [apply (hv_dec 9); lia|apply (hv_low 15); lia]|].
  apply (pbs_cons _ _ [240; 159; 152; 128] []); [|constructor].
  constructor; [lia|]. apply (u8_4 0 31 24 0); lia.
Qed.

Print Assumptions C35_texts.
Print Assumptions C35_ids.
Print Assumptions C35_defined_partial.
Print Assumptions C35_overflow_refuted.
Print Assumptions C35_collision_refuted.
Print Assumptions C35_auto_name_refuted.
Print Assumptions C55_compile.
