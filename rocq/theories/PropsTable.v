(** C78: the rows of a vehicle sprite table. *)
From Coq Require Import ZArith List Bool Lia.
From Verif Require Import Base BaseFacts CommonModel RecordsModel Action2Model TableModel SpecTable TableProofs.
Import ListNotations.
Open Scope Z_scope.

(** Whatever rows a program adds or fails to add, in whatever order: a call is
    accepted exactly when the row has eight sprites, its result is the number
    of rows accepted before, and a refused call changes nothing. *)
Theorem C78_numbers : forall {A} f (t0 t : table A) calls results,
  vehicle_table f = Some t0 -> run_adds t0 calls = (t, results) ->
  length results = length calls /\
  forall i row, nth_error calls i = Some row ->
    nth_error results i = Some (if len row =? 8
                                then Some (len (filter (fun r => len r =? 8) (firstn i calls)))
                                else None).
Proof.
  intros A f t0 t calls results V R. apply vehicle_table_inv in V as [_ ->].
  pose proof (run_adds_len calls (mkTable f [] (Some 8))) as L.
  rewrite R in L. split; [exact L|]. intros i row E.
  pose proof (run_adds_ids calls (mkTable f [] (Some 8)) i row E) as H. rewrite R in H. exact H.
Qed.

(** In what the table writes, the number add_row returned for a row is a set
    of the Action 1, and the eight sprites of that set are the row's, in
    order. *)
Theorem C78_sets : forall {A} f (t0 t : table A) calls results items,
  vehicle_table f = Some t0 -> run_adds t0 calls = (t, results) -> get_sprites t = Some items ->
  exists record sprites sets,
    items = IAction1 record :: map ISprite sprites
    /\ reads_as record f 0 sets 8
    /\ sets = len (filter (fun r => len r =? 8) calls)
    /\ len sprites = sets * 8
    /\ forall i row k, nth_error calls i = Some row -> nth_error results i = Some (Some k) ->
         0 <= k < sets /\ forall n, 0 <= n < 8 -> member sprites 8 k n = nth_error row (Z.to_nat n).
Proof.
  intros A f t0 t calls results items V R G. apply vehicle_table_inv in V as [Hf ->].
  pose proof (run_adds_table calls (mkTable f [] (Some 8))) as T. rewrite R in T. cbn in T. subst t.
  set (rows := filter (fits (Some 8)) calls) in *.
  assert (N : 1 <= len rows <= 65535).
  { apply (get_sprites_bound f rows items G). }
  destruct (get_sprites_full f rows Hf N) as (d & E & D). rewrite E in G. injection G as <-.
  pose proof (kept_width calls) as W. fold rows in W.
  exists d, (List.concat rows), (len rows). split; [reflexivity|]. split; [exact D|]. split; [reflexivity|]. split.
  { unfold len. rewrite (concat_rows_len 8 rows W). lia. }
  intros i row k Ei Ek.
  pose proof (run_adds_ids calls (mkTable f [] (Some 8)) i row Ei) as H. rewrite R in H. cbn [snd tb_width tb_rows] in H.
  rewrite Ek in H. destruct (fits (Some 8) row) eqn:F; [|discriminate]. injection H as H.
  pose proof (filter_pos (fits (Some 8)) calls i row Ei F) as P. fold rows in P.
  set (m := length (filter (fits (Some 8)) (firstn i calls))) in *.
  assert (m < length rows)%nat as Lm by (apply nth_error_Some; rewrite P; discriminate).
  assert (K : k = Z.of_nat m) by (rewrite H; unfold m, len; cbn [length]; lia).
  clear H. subst k. split; [unfold len; lia|].
  intros n Hn. unfold member.
  assert ((0 <=? Z.of_nat m) && (0 <=? n) && (n <? 8) = true) as ->
    by (rewrite !andb_true_iff, !Z.leb_le, Z.ltb_lt; lia).
  replace (Z.to_nat (Z.of_nat m * 8 + n)) with (m * 8 + Z.to_nat n)%nat by lia.
  apply (nth_concat_rows 8); [exact W|exact P|lia].
Qed.

(** The table can be written exactly when it has between 1 and 65535 rows. *)
Theorem C78_written : forall {A} f (t0 t : table A) calls results,
  vehicle_table f = Some t0 -> run_adds t0 calls = (t, results) ->
  ((exists items, get_sprites t = Some items) <->
   1 <= len (filter (fun r => len r =? 8) calls) <= 65535).
Proof.
  intros A f t0 t calls results V R. apply vehicle_table_inv in V as [Hf ->].
  pose proof (run_adds_table calls (mkTable f [] (Some 8))) as T. rewrite R in T. cbn in T. subst t.
  change (fun r : list A => len r =? 8) with (fits (A:=A) (Some 8)).
  set (rows := filter (fits (Some 8)) calls) in *. split.
  - intros [items G]. apply (get_sprites_bound f rows items G).
  - intros N. destruct (get_sprites_full f rows Hf N) as (d & E & _). eauto.
Qed.

(** The table is only for vehicles. *)
Theorem C78_features : forall {A} f, (exists t : table A, vehicle_table f = Some t) <-> 0 <= f <= 3.
Proof.
  intros A f. split.
  - intros [t V]. apply vehicle_table_inv in V. tauto.
  - intros H. apply vehicle_feature in H. unfold vehicle_table. rewrite H. eauto.
Qed.

(** The layout of a row number: Action 2 for the feature with one set for a
    moving and one for a loading vehicle, both that number. *)
Theorem C78_layout : forall f ref k, 0 <= f <= 3 -> 0 <= ref <= 255 -> 0 <= k <= 65535 ->
  match get_layout k f ref with
  | Some l => generic_data l = Some [2; f; ref; 1; 1; k mod 256; k / 256; k mod 256; k / 256]
  | None => False
  end.
Proof.
  intros f ref k Hf Hr Hk. unfold get_layout, generic_init. cbn [gl_feature gl_ent1 gl_ent2].
  assert (negb (VA2Model.memz f [7; 9; 15; 17; 10]) = true) as ->.
  { assert (f = 0 \/ f = 1 \/ f = 2 \/ f = 3) as C by lia.
    destruct C as [-> | [-> | [-> | ->]]]; reflexivity. }
  assert (forallb (fun x => (0 <=? x) && (x <=? 65535)) ([k] ++ [k]) = true) as ->.
  { cbn [app forallb]. assert ((0 <=? k) && (k <=? 65535) = true) as -> by (rewrite andb_true_iff, !Z.leb_le; lia). reflexivity. }
  unfold generic_data. cbn [gl_feature gl_ref_id gl_ent1 gl_ent2 app map concat_opt].
  rewrite (pack_B_ok f), (pack_B_ok ref), (pack_H_ok k) by lia. reflexivity.
Qed.

(** add_purchase_graphics always succeeds and makes a set whose sprite 6, the
    one shown in the purchase list, is the given one, whose sprite 2 is the
    second head if there is one, and whose other sprites are empty. *)
Theorem C78_purchase : forall {A} f (t0 t t' : table A) calls results empty sprite head k items,
  vehicle_table f = Some t0 -> run_adds t0 calls = (t, results) ->
  add_purchase_graphics t empty sprite head = Some (t', k) -> get_sprites t' = Some items ->
  exists record sprites, items = IAction1 record :: map ISprite sprites /\
    forall n, 0 <= n < 8 ->
      member sprites 8 k n =
      Some (if n =? 6 then sprite
            else if n =? 2 then match head with Some s => s | None => empty end else empty).
Proof.
  intros A f t0 t t' calls results empty sprite head k items V R P G.
  set (row := purchase_row empty sprite head) in *.
  assert (R' : forall l (t0 t1 : table A) r1, run_adds t0 l = (t1, r1) ->
            forall x, run_adds t0 (l ++ [x]) =
            match add_row t1 x with Some (t2, k) => (t2, r1 ++ [Some k]) | None => (t1, r1 ++ [None]) end).
  { clear. induction l as [|y l IH]; intros t0 t1 r1 E x; cbn in E |- *.
    - injection E as <- <-. destruct (add_row t0 x) as [[t2 k]|]; reflexivity.
    - destruct (add_row t0 y) as [[t2 k]|].
      + destruct (run_adds t2 l) as [t3 r3] eqn:E3. injection E as <- <-. rewrite (IH _ _ _ E3).
        destruct (add_row t3 x) as [[t4 k']|]; reflexivity.
      + destruct (run_adds t0 l) as [t3 r3] eqn:E3. injection E as <- <-. rewrite (IH _ _ _ E3).
        destruct (add_row t3 x) as [[t4 k']|]; reflexivity. }
  pose proof (R' calls t0 t results R row) as E. unfold add_purchase_graphics in P. fold row in P. rewrite P in E.
  destruct (C78_sets f t0 t' (calls ++ [row]) (results ++ [Some k]) items V E G)
    as (d & sprites & sets & -> & _ & _ & _ & M).
  exists d, sprites. split; [reflexivity|].
  assert (L : length results = length calls).
  { pose proof (run_adds_len calls t0) as L. rewrite R in L. exact L. }
  destruct (M (length calls) row k) as [_ M'].
  - rewrite nth_error_app2, Nat.sub_diag by lia. reflexivity.
  - rewrite <- L, nth_error_app2, Nat.sub_diag by lia. reflexivity.
  - intros n Hn. rewrite (M' n Hn).
    assert (n = 0 \/ n = 1 \/ n = 2 \/ n = 3 \/ n = 4 \/ n = 5 \/ n = 6 \/ n = 7) as C by lia.
    destruct C as [-> | [-> | [-> | [-> | [-> | [-> | [-> | ->]]]]]]]; reflexivity.
Qed.

Theorem C78_purchase_accepted : forall {A} f (t0 t : table A) calls results empty sprite head,
  vehicle_table f = Some t0 -> run_adds t0 calls = (t, results) ->
  exists t' k, add_purchase_graphics t empty sprite head = Some (t', k).
Proof.
  intros A f t0 t calls results empty sprite head V R. apply vehicle_table_inv in V as [_ ->].
  pose proof (run_adds_table calls (mkTable f [] (Some 8))) as T. rewrite R in T. cbn in T. subst t.
  unfold add_purchase_graphics. rewrite add_row_eq. cbn. eauto.
Qed.

(** A plain SpriteTable takes rows of any width, even of different widths, but
    nothing it is given can be written: the number of sprites in a set is
    never known. *)
Theorem C78_plain_refuted : forall {A} f calls (t : table A) results,
  run_adds (plain_table f) calls = (t, results) ->
  (forall i, nth_error results i = Some None -> False) /\ get_sprites t = None.
Proof.
  intros A f calls t results R. split.
  - intros i E. assert (exists row, nth_error calls i = Some row) as [row Er].
    { destruct (nth_error calls i) eqn:C; [eauto|]. apply nth_error_None in C.
      pose proof (run_adds_len calls (plain_table f)) as L. rewrite R in L. cbn in L.
      assert (nth_error results i = None) as N by (apply nth_error_None; lia). congruence. }
    pose proof (run_adds_ids calls (plain_table f) i row Er) as H. rewrite R in H. cbn in H. congruence.
  - pose proof (run_adds_table calls (plain_table f)) as T. rewrite R in T. cbn in T. subst t.
    unfold get_sprites. cbn. destruct (filter _ calls); reflexivity.
Qed.

(** ** Cases that meet the hypotheses *)
Example C78_case : match vehicle_table (A:=Z) 1 with
  | Some t0 =>
      let '(t, results) := run_adds t0 [[1;2;3;4;5;6;7;8]; [1;2]; [11;12;13;14;15;16;17;18]] in
      results = [Some 0; None; Some 1] /\
      get_sprites t = Some (IAction1 [1; 1; 2; 255; 8; 0] ::
        map ISprite [1;2;3;4;5;6;7;8;11;12;13;14;15;16;17;18])
  | None => False end.
Proof. split; reflexivity. Qed.
Example C78_case_purchase : match vehicle_table (A:=Z) 0 with
  | Some t0 => match add_purchase_graphics t0 0 77 (Some 88) with
               | Some (t, k) => k = 0 /\ get_sprites t = Some (IAction1 [1; 0; 1; 255; 8; 0] :: map ISprite [0;0;88;0;0;0;77;0])
               | None => False end
  | None => False end.
Proof. split; reflexivity. Qed.
Example C78_case_plain : run_adds (plain_table (A:=Z) 5) [[1;2]; [3]] = (mkTable 5 [[1;2]; [3]] None, [Some 0; Some 1]).
Proof. reflexivity. Qed.

Print Assumptions C78_numbers.
Print Assumptions C78_sets.
Print Assumptions C78_written.
Print Assumptions C78_features.
Print Assumptions C78_layout.
Print Assumptions C78_purchase.
Print Assumptions C78_purchase_accepted.
Print Assumptions C78_plain_refuted.
