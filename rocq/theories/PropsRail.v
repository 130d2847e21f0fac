(** C39. *)
From Coq Require Import ZArith List Bool Lia.
From Verif Require Import Base BaseFacts RecordsModel RecordsProofs IdMapProofs Action14Model RailtypeModel SpecRail RailProofs.
Import ListNotations.
Open Scope Z_scope.

(** For lists of fallback labels with different first labels: set_railtype_table
    gives them the ids 0, 1, ..., the actions can be written, and the game,
    playing them before the rest of the file, has in its table the first
    available label of each list, or the last when none is available.  The rest
    of the file must not have a label that one of the skips would go to. *)
Theorem C39_first_available : forall avail ls g rest,
  Forall (fun l => l <> [] /\ len l <= 129 /\ Forall (fun x => length x = 4%nat) l) ls -> NoDup (map (hd []) ls) ->
  len ls <= 255 -> len (filter (fun l => negb (len l =? 1)) ls) <= 128 -> g_patches g = [] ->
  (forall r l, In r rest -> In l ls -> byte_at 0 r = 16 -> 0 < byte_at 1 r <= 2 * len l - 3 -> False) ->
  exists t ids rs f, set_railtype_table ls = Some (t, ids) /\ railtype_actions t = Some rs /\
  play avail g (rs ++ rest) = play avail (mkGame f [] (map (choice avail) ls)) rest.
Proof.
  intros avail ls g rest F ND L M G C. exists (table_of 0 ls), (ids_from 0 ls).
  destruct (railtypes_ok avail ls g rest F ND L M G (limit_capture ls rest C)) as (rs & f & R & P).
  exists rs, f. split; [|split; assumption]. unfold set_railtype_table. rewrite add_all; [reflexivity| |exact ND].
  apply Forall_forall. intros l I. exact (proj1 (proj1 (Forall_forall _ _) F l I)).
Qed.
(** The ids returned are the places in the table, and asking for a first label
    gives its id. *)
Theorem C39_ids : forall ls, Forall (fun l => l <> []) ls -> NoDup (map (hd []) ls) ->
  exists t ids, set_railtype_table ls = Some (t, ids) /\ ids = map Z.of_nat (seq 0 (length ls)) /\
  forall i l, nth_error ls i = Some l -> get_railtype_id t (hd [] l) = Some (Z.of_nat i).
Proof.
  intros ls N D. exists (table_of 0 ls), (ids_from 0 ls). split; [unfold set_railtype_table; rewrite add_all; [reflexivity|exact N|exact D]|]. split.
  - change 0 with (Z.of_nat 0). generalize O. induction ls as [|l ls IH]; intro k; [reflexivity|]. cbn [ids_from length seq map]. f_equal.
    replace (Z.of_nat k + 1) with (Z.of_nat (S k)) by lia. apply IH; [apply Forall_inv_tail in N; exact N|apply NoDup_cons_iff in D; apply D].
  - intros i l I. unfold get_railtype_id.
    assert (X : In (hd [] l, (0 + Z.of_nat i, l)) (table_of 0 ls)).
    { clear N D. revert i I. generalize 0. induction ls as [|x ls IH]; intros z i I; [destruct i; discriminate|]. destruct i as [|i]; cbn [nth_error table_of] in *.
      - injection I as ->. left. f_equal. f_equal. lia.
      - right. replace (z + Z.of_nat (S i)) with (z + 1 + Z.of_nat i) by lia. apply IH. exact I. }
    rewrite (Ing bytes_eqb bytes_eqb_ok _ _ _ (eq_ind_r (fun k => NoDup k) D (table_of_keys ls 0)) X). reflexivity.
Qed.

Definition RAIL : bytes := [82; 65; 73; 76].
Definition ELRL : bytes := [69; 76; 82; 76].
Definition MONO : bytes := [77; 79; 78; 79].
(** Adding a list with a first label that is there already: its id, 1, is not
    the place in the table, and the game's table is wrong. *)
Theorem C39_same_first_label_refuted : exists t ids rs, set_railtype_table [[RAIL]; [RAIL; ELRL]] = Some (t, ids) /\ ids = [0; 1] /\
  railtype_actions t = Some rs /\
  forall g, g_patches g = [] -> g_table (play (fun _ => false) g rs) = [RAIL].
Proof. eexists. eexists. eexists. split; [reflexivity|]. split; [reflexivity|]. split; [reflexivity|]. intros [f p t] G. cbn [g_patches] in G. subst p. reflexivity. Qed.
(** A label 1 later in the file: when ELRL is available the game goes there and
    never sees the table. *)
Theorem C39_label_captures_refuted : exists t ids rs, set_railtype_table [[ELRL; RAIL]] = Some (t, ids) /\ railtype_actions t = Some rs /\
  forall g, g_patches g = [] -> g_table (play (fun _ => true) g (rs ++ [[16; 1; 99]])) = g_table g.
Proof. eexists. eexists. eexists. split; [reflexivity|]. split; [reflexivity|]. intros [f p t] G. cbn [g_patches] in G. subst p. reflexivity. Qed.

Example c39_case : exists t ids rs, set_railtype_table [[RAIL]; [MONO; ELRL; RAIL]] = Some (t, ids) /\ railtype_actions t = Some rs /\ length rs = 7%nat /\
  forall f tab, g_table (play (fun l => bytes_eqb l ELRL) (mkGame f [] tab) rs) = [RAIL; ELRL].
Proof. eexists. eexists. eexists. split; [reflexivity|]. split; [reflexivity|]. split; [reflexivity|]. intros. reflexivity. Qed.

Print Assumptions C39_first_available.
Print Assumptions C39_ids.
Print Assumptions C39_same_first_label_refuted.
Print Assumptions C39_label_captures_refuted.
