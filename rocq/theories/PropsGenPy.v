(** C70: a grf printed as a Python program is the same grf. *)
From Coq Require Import ZArith List Bool Lia.
From Verif Require Import Base BaseFacts RecordsModel RefsModel SpecRefs GenPyModel SpecGenPy RefsProofs FlatRefsProofs GenPyProofs.
Import ListNotations.
Open Scope Z_scope.

Definition order (l : list (action pref)) : list nat := seq 0 (length l).

(** Running the generated program makes the same actions in the same order,
    with the same numbers, features, ranges and other arguments; a reference
    is the action object it means in the grf (the nearest earlier one with
    that number), and stays a number when there is none or when it is a
    callback result. *)
Theorem C70_rebuilt : forall l, Forall decoded l -> Forall (fun a => distinct (pa_hold a)) l ->
  exists l', rebuild (heap_of l) (order l) = Some l' /\ length l' = length l /\
    forall i a, nth_error l i = Some a -> exists a', nth_error l' i = Some a' /\ same_action (rebuilt_ref l i) a a'.
Proof. exact rebuild_same. Qed.

(** The program runs, whether or not ranges are repeated: no variable is used
    before its assignment. *)
Theorem C70_runs : forall l, Forall decoded l -> exists l', rebuild (heap_of l) (order l) = Some l' /\ length l' = length l.
Proof. intros l H. unfold order. rewrite (rebuild_ok l H). eexists. split; [reflexivity|]. now rewrite map_length, seq_length. Qed.

(** No variable is assigned twice. *)
Theorem C70_names : forall l p i j s t x, Forall decoded l -> generate_python (heap_of l) (order l) = Some p ->
  nth_error p i = Some s -> nth_error p j = Some t -> st_var s = Some x -> st_var t = Some x -> i = j.
Proof.
  intros l p i j s t x HD H Hi Hj Xs Xt. unfold generate_python, order in H.
  destruct (link_all_ok l (heap_of l)) as (st & E & I); [intro k; now left|]. rewrite E in H. cbn [bind] in H. apply some_inj in H. subst p.
  assert (V : forall k u, nth_error (map (print_action st) (seq 0 (length l))) k = Some u -> st_var u = Some x -> var_of l k = Some x).
  { intros k u Hk Hu. assert (L : (k < length l)%nat).
    { rewrite <- (seq_length (length l) 0), <- (map_length (print_action st)). apply nth_error_Some. congruence. }
    rewrite nth_error_seq_map in Hk by exact L. apply some_inj in Hk. subst u. unfold print_action in Hu. cbn [st_var] in Hu.
    destruct (pa_referenceable (gs_heap st k)); [|discriminate Hu]. rewrite (l_var _ _ _ _ I) in Hu.
    destruct (Nat.ltb k (length l)); [exact Hu|discriminate Hu]. }
  eapply (var_of_inj l HD); eapply V; eassumption.
Qed.

(** Printing leaves the grf as it was for printing: a second call gives the
    same program. *)
Theorem C70_again : forall l p, generate_python (heap_of l) (order l) = Some p ->
  exists st, link_all (heap_of l) (order l) = Some st /\ generate_python (gs_heap st) (order l) = Some p.
Proof.
  intros l p H. unfold generate_python, order in *.
  destruct (link_all_ok l (heap_of l)) as (st & E & I); [intro k; now left|]. rewrite E in *. cbn [bind] in H. apply some_inj in H. subst p.
  exists st. split; [reflexivity|].
  destruct (link_all_ok l (gs_heap st)) as (st2 & E2 & I2).
  { intro k. rewrite (l_heap _ _ _ _ I). destruct (Nat.ltb k (length l)); auto. }
  rewrite E2. cbn [bind]. f_equal.
  assert (Hh : forall k, gs_heap st2 k = gs_heap st k).
  { intro k. rewrite (l_heap _ _ _ _ I2), (l_heap _ _ _ _ I). destruct (Nat.ltb k (length l)); reflexivity. }
  assert (Hv : forall k, gs_var st2 k = gs_var st k) by (intro k; rewrite (l_var _ _ _ _ I2), (l_var _ _ _ _ I); reflexivity).
  assert (Hf : forall r, format_ref st2 r = format_ref st r).
  { intros [a|v|m]; cbn [format_ref]; try reflexivity. now rewrite Hh, Hv. }
  apply map_ext. intro k. unfold print_action. rewrite Hh, Hv. f_equal.
  destruct (pa_hold (gs_heap st k)) as [subs rs d|gs|m d|]; cbn [print_args]; rewrite ?Hf; try reflexivity; f_equal; apply map_ext; intros; rewrite ?Hf; reflexivity.
Qed.

(** Written to a file, the rebuilt grf has the actions in the same order under
    the same numbers, and every reference is written as the number it had. *)
Theorem C70_written : forall l ft fuel, Forall decoded l -> Forall (fun a => distinct (pa_hold a)) l -> features_match l ft ->
  (length l < fuel)%nat ->
  exists l' res, rebuild (heap_of l) (order l) = Some l' /\ write_order fuel l' = Some res /\
    out res = order l /\
    forall i a, nth_error l i = Some a -> exists a', nth_error l' i = Some a' /\
      out_id res i = pa_ref_id a /\ out_feature res i = pa_feature a /\
      map (ref_number (out_id res)) (get_refs (pa_hold a')) = map (ref_number (fun _ => None)) (get_refs (pa_hold a)).
Proof.
  intros l ft fuel HD HN HF Hf. destruct (rebuild_same l HD HN) as (l' & E & L & S). exists l'.
  destruct (resolve_flat (fun k => to_node (heap_of l' k)) (length l') ft fuel) as (res & R & O & Ids & Fts).
  { apply (rebuilt_numbered l l' ft); assumption. } { lia. }
  exists res. split; [exact E|]. split; [exact R|]. split; [unfold order; rewrite <- L; exact O|].
  assert (Id : forall j b, nth_error l j = Some b -> out_id res j = pa_ref_id b /\ out_feature res j = pa_feature b).
  { intros j b Eb. rewrite Ids, Fts. cbn [to_node n_ref_id n_feature]. destruct (S j b Eb) as (b' & Eb' & (_ & S2 & S3 & _)).
    replace (heap_of l' j) with b'; [auto|]. symmetry. unfold heap_of. now apply nth_error_nth. }
  intros i a Ea. destruct (S i a Ea) as (a' & Ea' & (_ & _ & _ & _ & S5)). exists a'. split; [exact Ea'|].
  split; [apply Id, Ea|]. split; [apply Id, Ea|].
  apply same_hold_refs in S5. induction S5 as [|r r' rs rs' P F IH]; cbn [map]; [reflexivity|]. f_equal; [|exact IH].
  eapply number_kept; [|exact P]. intros j v (b & Eb & _ & Vb). rewrite <- Vb. apply Id, Eb.
Qed.

(** A case: number 5 is used three times; action 3 refers to the third one,
    action 1 to the first; 7 does not exist; 32771 is a callback result; the
    range is -2..-1. *)
Definition sprites_5 : action pref := mkPA true (Some 0) (Some 5) 11 HNone.
Definition switch_5 : action pref := mkPA true (Some 0) (Some 5) 12 (HSwitch [] [(0, 1, PRef 5); (4294967294, 4294967295, PRef 7)] (PRef 32771)).
Definition map_5 : action pref := mkPA false (Some 0) None 13 (HMap [(0, PRef 5); (254, PRef 5)] (PRef 7)).
Definition grf_5 := [sprites_5; switch_5; sprites_5; map_5].
Example C70_case : Forall decoded grf_5 /\ Forall (fun a => distinct (pa_hold a)) grf_5 /\ features_match grf_5 (fun _ => 0) /\
  rebuild (heap_of grf_5) (order grf_5) =
    Some [sprites_5; mkPA true (Some 0) (Some 5) 12 (HSwitch [] [(0, 1, PAct 0); (-2, -1, PRef 7)] (PRef 32771)); sprites_5;
          mkPA false (Some 0) None 13 (HMap [(0, PAct 2); (254, PAct 2)] (PRef 7))].
Proof.
  split; [|split; [|split]].
  - repeat constructor; cbn; try (repeat constructor; lia); try (exists 5; split; [reflexivity|lia]); try lia.
  - repeat constructor; cbn; intuition discriminate.
  - intros i a E. split; [|auto]. intros _. destruct i as [|[|[|[|i]]]]; cbn in E; try (injection E as <-; reflexivity). destruct i; discriminate.
  - vm_compute. reflexivity.
Qed.

(** A range listed twice: the program has one entry, at the place of the first
    with the value of the second. *)
Definition twice : list (action pref) := [mkPA true (Some 0) (Some 5) 0 (HSwitch [] [(1, 1, PRef 32769); (1, 1, PRef 32770)] (PRef 32768))].
Theorem C70_repeated_range_refuted : exists l l', Forall decoded l /\ rebuild (heap_of l) (order l) = Some l' /\
  exists a a', nth_error l 0 = Some a /\ nth_error l' 0 = Some a' /\ ~ same_action (rebuilt_ref l 0) a a'.
Proof.
  exists twice, [mkPA true (Some 0) (Some 5) 0 (HSwitch [] [(1, 1, PRef 32770)] (PRef 32768))].
  split; [repeat constructor; cbn; try lia; exists 5; split; [reflexivity|lia]|]. split; [vm_compute; reflexivity|].
  do 2 eexists. split; [reflexivity|]. split; [reflexivity|]. intros (_ & _ & _ & _ & S). cbn [pa_hold] in S.
  inversion S as [rs d rs' d' F D| | |]; subst. inversion F as [|x y xs ys _ F']; subst. inversion F'.
Qed.

(** The subroutines of a switch are not printed. *)
Theorem C70_subroutines_refuted : exists a, rebuild (heap_of [a]) (order [a]) = Some [mkPA true (Some 0) (Some 5) 0 (HSwitch [] [] (PRef 32768))] /\
  pa_hold a = HSwitch [(1, PRef 32769)] [] (PRef 32768).
Proof. exists (mkPA true (Some 0) (Some 5) 0 (HSwitch [(1, PRef 32769)] [] (PRef 32768))). split; [vm_compute|]; reflexivity. Qed.

(** An action given inline, as grf-py programs do, is not printed and cannot be
    referred to: the program stops at its use, although the grf can be
    written. *)
Definition inline_heap (k : nat) : action pref :=
  match k with
  | O => mkPA false (Some 0) None 0 (HMap [] (PAct 1))
  | 1%nat => mkPA true None None 0 HNone
  | _ => GenPyModel.blank
  end.
Theorem C70_inline_refuted : exists heap, rebuild heap [O] = None /\
  exists res, resolve_refs 5 (fun k => to_node (heap k)) [O] = Some res /\ out res = [1; 0]%nat.
Proof.
  exists inline_heap. split; [vm_compute; reflexivity|].
  destruct (resolve_refs 5 (fun k => to_node (inline_heap k)) [O]) as [r|] eqn:E; [|vm_compute in E; discriminate].
  exists r. split; [reflexivity|]. assert (O : option_map out (resolve_refs 5 (fun k => to_node (inline_heap k)) [0%nat]) = Some [1; 0]%nat) by (vm_compute; reflexivity).
  rewrite E in O. cbn in O. now injection O.
Qed.

(** A map of one feature referring to a number used last by another feature:
    the program runs but the rebuilt grf cannot be written. *)
Definition mixed : list (action pref) := [mkPA true (Some 1) (Some 5) 0 HNone; mkPA false (Some 0) None 0 (HMap [] (PRef 5))].
Theorem C70_mixed_features_refuted : exists l l', Forall decoded l /\ Forall (fun a => distinct (pa_hold a)) l /\
  rebuild (heap_of l) (order l) = Some l' /\ write_order 10 l' = None.
Proof.
  exists mixed, [mkPA true (Some 1) (Some 5) 0 HNone; mkPA false (Some 0) None 0 (HMap [] (PAct 0))].
  split; [repeat constructor; cbn; try lia; exists 5; split; [reflexivity|lia]|]. split; [repeat constructor|].
  split; vm_compute; reflexivity.
Qed.

(** A grf whose references are still numbers is not written whole (C25): the
    program is the way to write a decompiled grf. *)
Theorem C70_unprinted_refuted : exists l res, Forall decoded l /\ write_order 10 l = Some res /\ out res = [1]%nat /\ length l = 2%nat.
Proof.
  assert (D : Forall decoded [mkPA true (Some 0) (Some 5) 0 (HSwitch [] [] (PRef 32768)); mkPA false (Some 0) None 0 (HMap [] (PRef 5))]).
  { repeat constructor; cbn; try lia; exists 5; split; [reflexivity|lia]. }
  destruct (write_order 10 [mkPA true (Some 0) (Some 5) 0 (HSwitch [] [] (PRef 32768)); mkPA false (Some 0) None 0 (HMap [] (PRef 5))]) as [r|] eqn:E; [|vm_compute in E; discriminate].
  eexists. exists r. split; [exact D|]. split; [exact E|]. split; [|reflexivity].
  assert (O : option_map out (write_order 10 [mkPA true (Some 0) (Some 5) 0 (HSwitch [] [] (PRef 32768)); mkPA false (Some 0) None 0 (HMap [] (PRef 5))]) = Some [1]%nat) by (vm_compute; reflexivity).
  rewrite E in O. cbn in O. now injection O.
Qed.

Print Assumptions C70_rebuilt.
Print Assumptions C70_runs.
Print Assumptions C70_names.
Print Assumptions C70_again.
Print Assumptions C70_written.
Print Assumptions C70_repeated_range_refuted.
Print Assumptions C70_subroutines_refuted.
Print Assumptions C70_inline_refuted.
Print Assumptions C70_mixed_features_refuted.
Print Assumptions C70_unprinted_refuted.
