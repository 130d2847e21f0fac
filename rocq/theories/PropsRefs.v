(** Properties C24 and C25: reference resolution. *)
From Coq Require Import ZArith List Bool Lia.
From Verif Require Import Base BaseFacts RecordsModel RefsModel SpecRefs RefsProofs RefsProofs2 RefsProofs3 RefsTotal.
Import ListNotations.
Open Scope Z_scope.

(** C24: in the written order every action comes after the actions it refers
    to, and the number written into the reference means, at that point of the
    file, exactly the action the user passed; both have the same feature. *)
Theorem C24_refs_before_use : forall g listed fuel res pre a post r,
  inline_refs g listed -> acyclic g -> resolve_refs fuel g listed = Some res ->
  out res = pre ++ a :: post -> uses g a r ->
  exists n, last_with_id (out_id res) pre n r /\ 1 <= n <= 255 /\ out_feature res r = out_feature res a.
Proof.
  intros g listed fuel res pre a post r Hin [rank Hrank] H E U.
  exact (resolve_order g listed Hin rank Hrank fuel res H pre a post E r U).
Qed.

(** C25: the listed actions are all written, once each and in the listed
    order; whatever else is written is something they lead to, once each, and
    everything they lead to is written. *)
Theorem C25_listed_kept : forall g listed fuel res, inline_refs g listed -> acyclic g -> resolve_refs fuel g listed = Some res ->
  filter (fun x => mem x listed) (out res) = listed /\
  NoDup (filter (is_action g) (out res)) /\
  (forall x, In x (out res) <-> needed g listed x).
Proof.
  intros g listed fuel res Hin [rank Hrank] H. destruct (resolve_main g listed Hin rank Hrank fuel res H) as (F & EF & NF & _ & _ & L & NE & _).
  split; [exact L|]. split; [now rewrite EF|]. intro x. split; [apply NE|].
  intro N. exact (resolve_complete g listed Hin rank Hrank fuel res H x N).
Qed.

(** C25: nothing well-formed is rejected: with consistent features and at most
    255 referenceable actions, resolution succeeds given enough stack. *)
Theorem C25_resolves : forall g listed ft few, inline_refs g listed -> acyclic g -> features_agree g listed ft ->
  (length few <= 255)%nat -> (forall a, needed g listed a -> n_referenceable (g a) = true -> In a few) ->
  exists depth, forall fuel, (depth <= fuel)%nat -> exists res, resolve_refs fuel g listed = Some res.
Proof. exact resolve_refs_total. Qed.

(** A case: two maps (0, 1), a shared switch 2, a leaf 3 used twice, an
    unrelated pseudo sprite 4. *)
Definition leaf : node := mkNode false false [] None None.
Definition mapn (refs : list gref) : node := mkNode true false refs None (Some 0).
Definition swn (refs : list gref) : node := mkNode true true refs None None.
Definition ex_g (a : aid) : node :=
  match a with
  | 0 => mapn [GAct 2; GRef 32769%Z]
  | 1 => mapn [GAct 3; GAct 2]
  | 2 => swn [GAct 3; GAct 3; GOther]
  | 3 => mkNode false true [] None None
  | _ => leaf
  end%nat.
Definition show (r : option resolved) : option (list (aid * option Z)) :=
  match r with Some r => Some (map (fun a => (a, out_id r a)) (out r)) | None => None end.

Example C24_case : show (resolve_refs 10 ex_g [0; 4; 1]%nat) =
  Some [(3%nat, Some 254); (2%nat, Some 255); (0%nat, None); (4%nat, None); (1%nat, None)].
Proof. vm_compute. reflexivity. Qed.

Lemma ex_uses : forall a r, uses ex_g a r -> (a, r) = (0, 2)%nat \/ (a, r) = (1, 3)%nat \/ (a, r) = (1, 2)%nat \/ (a, r) = (2, 3)%nat.
Proof.
  intros a r (H1 & H2 & H3). destruct a as [|[|[|[|a]]]]; cbn in H1, H2; try discriminate;
    intuition; try discriminate; match goal with H : GAct _ = GAct _ |- _ => injection H as <- end; auto 6.
Qed.
Example C24_case_meets : inline_refs ex_g [0; 4; 1]%nat /\ acyclic ex_g /\ features_agree ex_g [0; 4; 1]%nat (fun _ => 0) /\
  (forall a, needed ex_g [0; 4; 1]%nat a -> n_referenceable (ex_g a) = true -> In a [2; 3]%nat).
Proof.
  split; [|split; [|split]].
  - constructor.
    + cbn. repeat constructor; cbn; intuition discriminate.
    + intros a r _ U I. apply ex_uses in U. cbn in I. intuition (try discriminate); congruence.
    + intros a _. destruct a as [|[|[|[|a]]]]; reflexivity.
    + intros a v _ I. destruct a as [|[|[|[|a]]]]; cbn in I; intuition (try discriminate). now injection H0 as <-.
  - exists (fun a => match a with 0 | 1 => 2 | 2 => 1 | _ => 0 end)%nat. intros a r U. apply ex_uses in U.
    destruct U as [U|[U|[U|U]]]; injection U as -> ->; lia.
  - constructor.
    + intros a I A. cbn in I. destruct I as [<-|[<-|[<-|[]]]]; try reflexivity. discriminate A.
    + intros a f _ E. destruct a as [|[|[|[|a]]]]; cbn in E; congruence.
    + reflexivity.
  - intros a _ R. destruct a as [|[|[|[|a]]]]; cbn in R; try discriminate; cbn; auto.
Qed.

(** What happens outside the inline case. *)

(** A map that refers by number to an explicitly numbered, listed switch is
    written, but the switch counts as referenced and is never emitted. *)
Definition cx_num (a : aid) : node :=
  match a with 0 => mkNode true true [] (Some 5%Z) (Some 0%Z) | 1 => mapn [GRef 5%Z] | _ => leaf end%nat.
Theorem C25_numbered_ref_refuted : exists g listed fuel res a,
  NoDup listed /\ acyclic g /\ resolve_refs fuel g listed = Some res /\ In a listed /\ ~ In a (out res).
Proof.
  exists cx_num, [0; 1]%nat, 5%nat.
  destruct (resolve_refs 5 cx_num [0; 1]%nat) as [r|] eqn:E; [|vm_compute in E; discriminate].
  exists r, 0%nat. split; [repeat constructor; cbn; intuition discriminate|]. split.
  - clear. exists (fun _ => 0%nat). intros a r' (H1 & H2 & H3). destruct a as [|[|a]]; cbn in H1, H2, H3; intuition discriminate.
  - split; [reflexivity|]. split; [now left|].
    assert (O : option_map out (resolve_refs 5 cx_num [0; 1]%nat) = Some [1]%nat) by (vm_compute; reflexivity).
    rewrite E in O. cbn in O. injection O as ->. cbn. intuition discriminate.
Qed.

(** A listed action that refers to one listed later is written before it. *)
Definition cx_fwd (a : aid) : node :=
  match a with 0 => mapn [GAct 1] | 1 => mkNode true true [] None (Some 0%Z) | _ => leaf end%nat.
Theorem C24_listed_later_refuted : exists g listed fuel res a r,
  NoDup listed /\ acyclic g /\ resolve_refs fuel g listed = Some res /\ uses g a r /\ out res = [a; r].
Proof.
  exists cx_fwd, [0; 1]%nat, 5%nat.
  destruct (resolve_refs 5 cx_fwd [0; 1]%nat) as [r|] eqn:E; [|vm_compute in E; discriminate].
  exists r, 0%nat, 1%nat. split; [repeat constructor; cbn; intuition discriminate|]. split.
  - clear. exists (fun a => match a with 0 => 1 | _ => 0 end)%nat. intros a r' (H1 & H2 & H3). destruct a as [|[|a]]; cbn in H1, H2, H3; intuition (try discriminate).
    injection H as <-. lia.
  - split; [reflexivity|]. split; [repeat split; now left|].
    assert (O : option_map out (resolve_refs 5 cx_fwd [0; 1]%nat) = Some [0; 1]%nat) by (vm_compute; reflexivity).
    rewrite E in O. cbn in O. now injection O as ->.
Qed.

(** A listed action and one it shares with a later listed action: the shared
    one is written after its first user. *)
Definition cx_mis (a : aid) : node :=
  match a with
  | 0 => mkNode true true [GAct 2] None (Some 0%Z)
  | 1 => mapn [GAct 2; GAct 0]
  | 2 => mkNode false true [] None None
  | _ => leaf end%nat.
Theorem C24_shared_refuted : exists g listed fuel res a r,
  NoDup listed /\ acyclic g /\ resolve_refs fuel g listed = Some res /\ uses g a r /\ ~ In r listed /\
  exists z, out res = [a; r; z].
Proof.
  exists cx_mis, [0; 1]%nat, 5%nat.
  destruct (resolve_refs 5 cx_mis [0; 1]%nat) as [r|] eqn:E; [|vm_compute in E; discriminate].
  exists r, 0%nat, 2%nat. split; [repeat constructor; cbn; intuition discriminate|]. split.
  - clear. exists (fun a => match a with 0 => 1 | 1 => 2 | _ => 0 end)%nat. intros a r' (H1 & H2 & H3).
    destruct a as [|[|[|[|a]]]]; cbn in H1, H2, H3; intuition (try discriminate); match goal with H : GAct _ = GAct _ |- _ => injection H as <- end; lia.
  - split; [reflexivity|]. split; [repeat split; now left|]. split; [cbn; intuition discriminate|]. exists 1%nat.
    assert (O : option_map out (resolve_refs 5 cx_mis [0; 1]%nat) = Some [0; 2; 1]%nat) by (vm_compute; reflexivity).
    rewrite E in O. cbn in O. now injection O as ->.
Qed.

(** A listed action that is referred to later shares its id with an unrelated
    action written between. *)
Definition cx_col (a : aid) : node :=
  match a with
  | 0 => mkNode true true [] None (Some 0%Z)
  | 1 => mapn [GAct 3]
  | 2 => mapn [GAct 0]
  | 3 => mkNode false true [] None None
  | _ => leaf end%nat.
Theorem C24_id_collision_refuted : exists g listed fuel res x r a n,
  NoDup listed /\ acyclic g /\ resolve_refs fuel g listed = Some res /\ uses g a r /\ x <> r /\
  out_id res r = Some n /\ out_id res x = Some n /\ exists z, out res = [r; x; z; a].
Proof.
  exists cx_col, [0; 1; 2]%nat, 5%nat.
  destruct (resolve_refs 5 cx_col [0; 1; 2]%nat) as [r|] eqn:E; [|vm_compute in E; discriminate].
  exists r, 3%nat, 0%nat, 2%nat, 255. split; [repeat constructor; cbn; intuition discriminate|]. split.
  - clear. exists (fun a => match a with 1 | 2 => 1 | _ => 0 end)%nat. intros a r' (H1 & H2 & H3).
    destruct a as [|[|[|[|a]]]]; cbn in H1, H2, H3; intuition (try discriminate); match goal with H : GAct _ = GAct _ |- _ => injection H as <- end; lia.
  - split; [reflexivity|]. split; [repeat split; now left|]. split; [discriminate|].
    assert (O : show (resolve_refs 5 cx_col [0; 1; 2]%nat) = Some [(0%nat, Some 255); (3%nat, Some 255); (1%nat, None); (2%nat, None)]) by (vm_compute; reflexivity).
    rewrite E in O. cbn [show] in O. apply some_inj in O.
    assert (Om : out r = [0; 3; 1; 2]%nat).
    { apply (f_equal (map fst)) in O. rewrite map_map in O. cbn [fst] in O. rewrite map_id in O. exact O. }
    rewrite Om in O. cbn [map] in O. injection O as -> -> _ _. split; [reflexivity|]. split; [reflexivity|]. exists 1%nat. exact Om.
Qed.

(** The id an unnumbered action is given is free: it is none of the ids that
    explicitly numbered actions hold at that moment. *)
Theorem C24_auto_id_free : forall n ids reserved v ids', pop_free n ids reserved = Some (v, ids') ->
  ~ In v reserved /\ In (- v) ids /\ incl ids' ids.
Proof. exact pop_free_free. Qed.
Example C24_auto_id_free_case : pop_free 256 ids0 [255; 254] = Some (253, remove1 (-253) (remove1 (-254) (remove1 (-255) ids0))).
Proof. vm_compute. reflexivity. Qed.

(** But an explicit id that an unnumbered action already holds is not refused:
    map 1 uses 3, which gets 255; switch 0, numbered 255, is listed next; map 2
    uses 3 again, and its reference now means switch 0. *)
Definition cx_exp (a : aid) : node :=
  match a with
  | 0 => mkNode true true [] (Some 255%Z) (Some 0%Z)
  | 1 => mapn [GAct 3]
  | 2 => mapn [GAct 3]
  | 3 => mkNode false true [] None None
  | _ => leaf end%nat.
Theorem C24_explicit_id_refuted : exists g listed fuel res r x a n,
  NoDup listed /\ acyclic g /\ resolve_refs fuel g listed = Some res /\ uses g a r /\ x <> r /\
  out_id res r = Some n /\ out_id res x = Some n /\ exists z, out res = [r; z; x; a].
Proof.
  exists cx_exp, [1; 0; 2]%nat, 5%nat.
  destruct (resolve_refs 5 cx_exp [1; 0; 2]%nat) as [r|] eqn:E; [|vm_compute in E; discriminate].
  exists r, 3%nat, 0%nat, 2%nat, 255. split; [repeat constructor; cbn; intuition discriminate|]. split.
  - clear. exists (fun a => match a with 1 | 2 => 1 | _ => 0 end)%nat. intros a r' (H1 & H2 & H3).
    destruct a as [|[|[|[|a]]]]; cbn in H1, H2, H3; intuition (try discriminate); match goal with H : GAct _ = GAct _ |- _ => injection H as <- end; lia.
  - split; [reflexivity|]. split; [repeat split; now left|]. split; [discriminate|].
    assert (O : show (resolve_refs 5 cx_exp [1; 0; 2]%nat) = Some [(3%nat, Some 255); (1%nat, None); (0%nat, Some 255); (2%nat, None)]) by (vm_compute; reflexivity).
    rewrite E in O. cbn [show] in O. apply some_inj in O.
    assert (Om : out r = [3; 1; 0; 2]%nat).
    { apply (f_equal (map fst)) in O. rewrite map_map in O. cbn [fst] in O. rewrite map_id in O. exact O. }
    rewrite Om in O. cbn [map] in O. injection O as -> _ -> _. split; [reflexivity|]. split; [reflexivity|]. exists 1%nat. exact Om.
Qed.

(** Two actions that refer to each other and nothing else: both vanish. *)
Definition cx_cyc (a : aid) : node :=
  match a with 0 => mkNode true true [GAct 1] None (Some 0%Z) | 1 => mkNode true true [GAct 0] None None | _ => leaf end%nat.
Theorem C25_cycle_refuted : exists g listed fuel res a, resolve_refs fuel g listed = Some res /\ In a listed /\ out res = [].
Proof.
  exists cx_cyc, [0]%nat, 5%nat.
  destruct (resolve_refs 5 cx_cyc [0]%nat) as [r|] eqn:E; [|vm_compute in E; discriminate].
  exists r, 0%nat. split; [reflexivity|]. split; [now left|].
  assert (O : option_map out (resolve_refs 5 cx_cyc [0]%nat) = Some []) by (vm_compute; reflexivity).
  rewrite E in O. cbn in O. now injection O as ->.
Qed.

Print Assumptions C24_refs_before_use.
Print Assumptions C25_listed_kept.
Print Assumptions C25_resolves.
Print Assumptions C25_numbered_ref_refuted.
Print Assumptions C24_listed_later_refuted.
Print Assumptions C24_shared_refuted.
Print Assumptions C24_id_collision_refuted.
Print Assumptions C25_cycle_refuted.
Print Assumptions C24_auto_id_free.
Print Assumptions C24_explicit_id_refuted.
