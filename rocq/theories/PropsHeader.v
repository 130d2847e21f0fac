(** C63: what a file says about itself. *)
From Coq Require Import ZArith List Bool Lia String.
From Verif Require Import Base BaseFacts CommonModel RecordsModel Action14Model SpecAction14 RailtypeModel SpecRail RailProofs HeaderModel SpecHeader HeaderProofs PyValue.
Import ListNotations.
Open Scope string_scope.
Open Scope list_scope.
Open Scope Z_scope.

(** NewGRF(...) and any sequence of calls on it, writes among them: writing
    then starts with an Action 14 that reads as the description of exactly
    this file and these parameters, and an Action 8 with the same name; then
    come the cargo table, as set last, and the railtypes. *)
Theorem C63_header : forall a cs, fine_args a -> fine_calls cs ->
  exists g0 g g' x y rails, new_grf a = Some g0 /\ do_calls g0 cs = Some g
    /\ header g = Some (g', (20 :: x) :: (8 :: y)
         :: match asked_cargo cs with None => [] | Some l => [[0; 8; 1; len l; 255; 0; 0; 9] ++ List.concat l] end ++ rails)
    /\ decode_action14 x = Some (described a (asked_parameters cs))
    /\ decode_action8 y = Some (mkA8 (g_format a) (g_grfid a) (text_default (g_name a)) (text_default (g_desc a)))
    /\ match asked_rails cs with
       | [] => rails = []
       | ls => exists t ids, set_railtype_table ls = Some (t, ids) /\ railtype_actions t = Some rails
       end.
Proof.
  intros a cs FA FC. destruct (calls_ok a cs FA FC) as (g & E & S). destruct FC as (FP & LP & FCg & FR).
  destruct (header_ok a (asked_parameters cs) (asked_cargo cs) (asked_rails cs) g FA FP LP) as (g' & x & y & rails & H & _ & D14 & D8 & R); [|exact FR|exact S|].
  { destruct (asked_cargo cs) as [l|] eqn:Q; [cbn; apply FCg, asked_cargo_in, Q|exact I]. }
  exists (mk_newgrf a (base a) [] None None), g, g', x, y, rails. split; [apply new_grf_base; [apply FA|destruct FA as (_ & _ & _ & _ & _ & _ & _ & GB); exact GB]|].
  split; [exact E|]. split; [exact H|]. split; [exact D14|]. split; [exact D8|].
  destruct (asked_rails cs) as [|l ls]; [exact R|]. exists (table_of 0 (l :: ls)), (ids_from 0 (l :: ls)). split; [|exact R].
  destruct FR as (F1 & F2 & _). unfold set_railtype_table. rewrite add_all; [reflexivity| |exact F2]. apply Forall_forall. intros u U. exact (proj1 (proj1 (Forall_forall _ _) F1 u U)).
Qed.
(** Writing twice writes the same. *)
Theorem C63_twice : forall a cs g0 g g1 g2 r1 r2, fine_args a -> fine_calls cs -> new_grf a = Some g0 -> do_calls g0 cs = Some g ->
  header g = Some (g1, r1) -> header g1 = Some (g2, r2) -> r2 = r1.
Proof.
  intros a cs g0 g g1 g2 r1 r2 FA FC N E H1 H2. destruct (calls_ok a cs FA FC) as (g' & E' & S). destruct FC as (FP & LP & FCg & FR).
  rewrite new_grf_base in N; [|apply FA|destruct FA as (_ & _ & _ & _ & _ & _ & _ & GB); exact GB]. apply some_inj in N. subst g0. rewrite E in E'. apply some_inj in E'. subst g'.
  assert (AC : all fine_cargo (asked_cargo cs)) by (destruct (asked_cargo cs) as [l|] eqn:Q; [cbn; apply FCg, asked_cargo_in, Q|exact I]).
  destruct (header_ok a _ _ _ g FA FP LP AC FR S) as (h & x & y & rails & H & S' & D14 & D8 & R). rewrite H in H1. apply some_inj in H1. apply pair_inj in H1 as [-> <-].
  pose proof S as (SA & SI & SP & SC & SR). pose proof S' as (SA' & SI' & SP' & SC' & SR').
  destruct (header_ok a _ _ _ g1 FA FP LP AC FR S') as (h2 & x2 & y2 & rails2 & Hh & _ & D14' & D8' & R'). rewrite Hh in H2. apply some_inj in H2. apply pair_inj in H2 as [_ <-].
  assert (X : x2 = x /\ y2 = y /\ rails2 = rails).
  { pose proof (info_same a _ _ _ g FA FP LP AC FR S) as I1. pose proof (info_same a _ _ _ g1 FA FP LP AC FR S') as I2. rewrite H in I1. rewrite Hh in I2. destruct I1 as [A1 B1], I2 as [A2 B2].
    rewrite A1 in A2. rewrite B1 in B2. injection A2 as ->. injection B2 as ->. split; [reflexivity|]. split; [reflexivity|]. destruct (asked_rails cs); congruence. }
  destruct X as (-> & -> & ->). reflexivity.
Qed.

(** A GRF id that has not four bytes, an unknown blitter, more than 255
    parameters are refused. *)
Theorem C63_refused : forall a, len (g_grfid a) <> 4 \/ (exists b, g_blitter a = Some b /\ b <> NewGRF_BLITTER_BPP_8 /\ b <> NewGRF_BLITTER_BPP_32) -> new_grf a = None.
Proof.
  intros a [H | (b & B & N8 & N3)]; unfold new_grf.
  - now rewrite (proj2 (Z.eqb_neq _ _) H).
  - destruct (len (g_grfid a) =? 4); [|reflexivity]. rewrite B.
    destruct (bytes_eqb b [56]) eqn:E1; [apply bytes_eqb_ok in E1; contradiction|]. destruct (bytes_eqb b [51]) eqn:E2; [apply bytes_eqb_ok in E2; contradiction|]. reflexivity.
Qed.
Theorem C63_too_many : forall g, 255 < len (n_params g) -> header g = None.
Proof.
  intros g L. unfold header. destruct (n_params g) as [|p ps]; [unfold len in L; cbn in L; lia|].
  assert (M : mk_bytes [len (p :: ps)] = None). { unfold mk_bytes, bytesb, byteb. cbn [forallb]. replace (len (p :: ps) <? 256) with false by lia. now rewrite andb_false_r. }
  rewrite M. reflexivity.
Qed.

(** ---- cargo ---- *)
(** set_cargo_table returns the places of the labels; get_cargo_id gives the
    place of a label in the table the game reads, and raises for other labels;
    map_cargo_labels gives the places of all its labels. *)
Theorem C63_cargo : forall g l g' ids, fine_cargo l -> set_cargo_table g l = (g', ids) ->
  ids = map Z.of_nat (seq 0 (List.length l))
  /\ labels (List.length l) (List.concat l) = l
  /\ (forall c i, get_cargo_id g' c = Some i <-> 0 <= i /\ nth_error l (Z.to_nat i) = Some c)
  /\ (forall ls, Forall (fun c => In c l) ls -> exists b, map_cargo_labels g' ls = Some b
        /\ map (fun i => nth_error l (Z.to_nat i)) b = map Some ls)
  /\ (forall ls, ~ Forall (fun c => In c l) ls -> map_cargo_labels g' ls = None).
Proof.
  intros g l g' ids (F4 & ND & L) E. unfold set_cargo_table in E. apply pair_inj in E as [<- <-]. split; [reflexivity|]. split; [exact (labels_concat l F4)|].
  assert (GET : forall c i, dict_get bytes_eqb (number 0 [] l) c = Some i <-> 0 <= i /\ nth_error l (Z.to_nat i) = Some c).
  { intros c i. destruct (cargo_get l c ND) as [[-> N] | (k & -> & K)].
    - split; [discriminate|]. intros [_ H]. apply nth_error_In in H. contradiction.
    - split; [intros Q; apply some_inj in Q; subst i; rewrite Nat2Z.id; split; [lia|exact K]|]. intros [P H]. f_equal.
      assert (Z.to_nat i = k); [|lia]. apply (proj1 (NoDup_nth_error l) ND); [apply nth_error_Some; congruence|congruence]. }
  split; [unfold get_cargo_id; cbn [n_cargo bind]; exact GET|]. split.
  - intros ls F. unfold map_cargo_labels. cbn [n_cargo bind].
    assert (X : exists b, ids_of (number 0 [] l) ls = Some b /\ map (fun i => nth_error l (Z.to_nat i)) b = map Some ls /\ Forall (fun i => 0 <= i < 256) b).
    { clear - F GET L. induction F as [|c ls C F (b & B & M & R)]; [exists []; repeat split; constructor|]. apply In_nth_error in C as [k K].
      assert (Q : dict_get bytes_eqb (number 0 [] l) c = Some (Z.of_nat k)) by (apply GET; rewrite Nat2Z.id; split; [lia|exact K]).
      exists (Z.of_nat k :: b). cbn [ids_of map]. rewrite Q. cbn [bind]. rewrite B. cbn [bind]. split; [reflexivity|]. split; [rewrite Nat2Z.id, K, M; reflexivity|].
      constructor; [|exact R]. assert (k < List.length l)%nat by (apply nth_error_Some; congruence). unfold len in L. lia. }
    destruct X as (b & B & M & R). exists b. split; [|exact M]. rewrite B. cbn [bind]. unfold mk_bytes. assert (Q : bytesb b = true); [|now rewrite Q].
    unfold bytesb. apply forallb_forall. intros i I. pose proof (proj1 (Forall_forall _ _) R i I). unfold byteb. cbn beta in *. lia.
  - intros ls NF. unfold map_cargo_labels. cbn [n_cargo bind]. assert (X : ids_of (number 0 [] l) ls = None); [|now rewrite X].
    clear - NF GET ND. induction ls as [|c ls IH]; [exfalso; apply NF; constructor|]. cbn [ids_of]. destruct (dict_get bytes_eqb (number 0 [] l) c) as [i|] eqn:Q; [cbn [bind]|reflexivity].
    apply GET in Q as [_ Q]. apply nth_error_In in Q. rewrite IH; [reflexivity|]. intros F. apply NF. now constructor.
Qed.

(** FULL CLAIM REFUTED for a table with a label twice: the returned ids and
    get_cargo_id count it twice, the written table holds it once, so the label
    has an id beyond the table and the next label a wrong one. *)
Definition PASS : bytes := [80; 65; 83; 83].
Definition COAL : bytes := [67; 79; 65; 76].
Definition MAIL : bytes := [77; 65; 73; 76].
Theorem C63_duplicate_refuted : forall g, let (g', ids) := set_cargo_table g [PASS; COAL; PASS; MAIL] in
  ids = [0; 1; 2; 3] /\ get_cargo_id g' PASS = Some 2 /\ get_cargo_id g' MAIL = Some 3
  /\ option_map (map fst) (n_cargo g') = Some [PASS; COAL; MAIL].
Proof. intros g. cbn. auto. Qed.

(** ---- a case ---- *)
Definition ex_args : args :=
  mk_args [71; 82; 70; 1] (TStr [65; 66]) (TRef [(127, [67]); (1, [68; 69])] [67]) (Some 12) (Some 3) 8 (Some [104]) (Some NewGRF_BLITTER_BPP_32).
Definition ex_calls : list call :=
  [CBool (TStr [98]) (TStr []) (Some true); CCargo [PASS]; CWrite; CInt (TStr [99]) (TStr [100]) (Some 7) (Some (1, 300)) (Some [(1, TStr [49]); (7, TRef [(127, [55])] [55])]);
   CCargo [PASS; COAL]; CRail [[82; 65; 73; 76]]].
Example C63_case_fine : fine_args ex_args /\ fine_calls ex_calls.
Proof.
  split.
  - unfold fine_args, ex_args, NewGRF_BLITTER_BPP_8, NewGRF_BLITTER_BPP_32, fine_number, text_ok. cbn. repeat split; try lia; auto; try (intros H; repeat (destruct H as [H | H]; [discriminate H|]); exact H); try discriminate.
    repeat constructor; cbn; try lia.
  - unfold fine_calls, ex_calls, fine_cargo, fine_rails, fine_number. cbn. repeat split; try lia.
    + repeat constructor; cbn; try lia; try tauto; try (intros H; repeat (destruct H as [H | H]; [discriminate H|]); exact H); try discriminate.
    + repeat (destruct H as [H | H]; [try discriminate H|]); try contradiction H; injection H as <-; repeat constructor.
    + repeat (destruct H as [H | H]; [try discriminate H|]); try contradiction H; injection H as <-; repeat constructor; cbn; intuition discriminate.
    + repeat (destruct H as [H | H]; [try discriminate H|]); try contradiction H; injection H as <-; vm_compute; discriminate.
    + repeat constructor; cbn; try discriminate; vm_compute; discriminate.
    + repeat constructor. intros [].
Qed.
(** The keys of the description are the four-letter words of the format. *)
Theorem C63_tags :
  INFO = txt "INFO" /\ PALS = txt "PALS" /\ NAME = txt "NAME" /\ DESC = txt "DESC" /\ BLTR = txt "BLTR" /\ VRSN = txt "VRSN"
  /\ MINV = txt "MINV" /\ URL_ = txt "URL_" /\ NPAR = txt "NPAR" /\ PARA = txt "PARA" /\ TYPE = txt "TYPE" /\ DFLT = txt "DFLT"
  /\ LIMI = txt "LIMI" /\ VALU = txt "VALU".
Proof. repeat (split; [reflexivity|]). reflexivity. Qed.
Example C63_case : exists g0 g g' recs, new_grf ex_args = Some g0 /\ do_calls g0 ex_calls = Some g /\ header g = Some (g', recs)
  /\ List.length recs = 4%nat /\ nth_error recs 2 = Some ([0; 8; 1; 2; 255; 0; 0; 9] ++ PASS ++ COAL).
Proof. do 4 eexists. split; [reflexivity|]. split; [reflexivity|]. split; [reflexivity|]. split; reflexivity. Qed.

Print Assumptions C63_header.
Print Assumptions C63_twice.
Print Assumptions C63_refused.
Print Assumptions C63_too_many.
Print Assumptions C63_cargo.
Print Assumptions C63_duplicate_refuted.
Print Assumptions C63_tags.
