(** Proofs about ExtractModel. *)
From Coq Require Import ZArith List Bool String Lia Permutation.
From Verif Require Import Base BaseFacts RecordsModel RecordsProofs DecodeModel DecodeProofs SheetProofs AnnounceModel AnnounceProofs SpecDecode SpecAnnounce CommonModel CommonProofs ExtractModel SpecExtract PyValue.
Import ListNotations.
Open Scope string_scope.
Open Scope list_scope.
Open Scope Z_scope.

(** ** The decoded array has the shape of the sprite *)
Definition isb (l : bytes) : Prop := Forall (fun b => 0 <= b < 256) l.
Lemma isb_firstn n l : isb l -> isb (firstn n l).
Proof. unfold isb. rewrite !Forall_forall. intros H x I. apply H. rewrite <- (firstn_skipn n l). apply in_or_app. now left. Qed.
Lemma isb_skipn n l : isb l -> isb (skipn n l).
Proof. unfold isb. rewrite !Forall_forall. intros H x I. apply H. rewrite <- (firstn_skipn n l). apply in_or_app. now right. Qed.
Lemma decode_loop_isb : forall fuel num data f out rest, decode_loop fuel num data f = Some (out, rest) -> isb data -> isb f -> isb out /\ isb rest.
Proof.
  induction fuel as [|fuel IH]; intros num data f out rest H D F; cbn [decode_loop] in H; [discriminate|].
  destruct (negb (0 <? num)).
  { destruct (num =? 0); [|discriminate]. apply some_inj in H. apply pair_inj in H as [<- <-]. split; assumption. }
  destruct f as [|b f]; cbn [rd_B bind] in H; [discriminate|]. inversion F as [|? ? _ F1]; subst.
  set (code := if 128 <=? b then b - 256 else b) in *. destruct (0 <=? code).
  - destruct (num - _ <? 0); [discriminate|]. unfold slice in H. apply IH in H; [exact H|apply Forall_app; split; [exact D|apply isb_firstn, F1]|apply isb_skipn, F1].
  - destruct f as [|b2 f]; cbn [rd_B bind] in H; [discriminate|]. inversion F1 as [|? ? _ F2]; subst. destruct (num - _ <? 0); [discriminate|].
    destruct (_ =? _); (apply IH in H; [exact H|apply Forall_app; split; [exact D|]|exact F2]).
    + unfold py_slice_from. apply isb_skipn, D.
    + unfold py_slice. apply isb_firstn, isb_skipn, D.
Qed.
Definition row_ok (w bpp : nat) (row : list pixel) : Prop := List.length row = w /\ Forall (fun p => List.length p = bpp) row.
Lemma chop_ok n k (l : bytes) : List.length l = (n * k)%nat -> Forall (fun p : list Z => List.length p = k) (chop n k l).
Proof.
  revert l. induction n as [|n IH]; intros l E; cbn [chop]; constructor.
  - rewrite firstn_length. lia.
  - apply IH. rewrite skipn_length. lia.
Qed.
Lemma chop_rows n k (P : pixel -> Prop) (l : list pixel) : List.length l = (n * k)%nat -> Forall P l -> Forall (fun r => List.length r = k /\ Forall P r) (chop n k l).
Proof.
  revert l. induction n as [|n IH]; intros l E F; cbn [chop]; constructor.
  - split; [rewrite firstn_length; lia|]. rewrite <- (firstn_skipn k l) in F. apply Forall_app in F as [F _]. exact F.
  - apply IH; [rewrite skipn_length; lia|]. rewrite <- (firstn_skipn k l) in F. apply Forall_app in F as [_ F]. exact F.
Qed.
Lemma Forall_firstn' {A} (P : A -> Prop) n l : Forall P l -> Forall P (firstn n l).
Proof. intros F. rewrite <- (firstn_skipn n l) in F. apply Forall_app in F. tauto. Qed.
Lemma Forall_skipn' {A} (P : A -> Prop) n l : Forall P l -> Forall P (skipn n l).
Proof. intros F. rewrite <- (firstn_skipn n l) in F. apply Forall_app in F. tauto. Qed.
Lemma assign_run_ok w bpp row skip b row' : assign_run row skip b = Some row' -> 0 <= skip -> row_ok w bpp row -> Forall (fun p => List.length p = bpp) b -> row_ok w bpp row'.
Proof.
  unfold assign_run. intros H S [L F] B. cbn zeta in H. destruct (Z.eqb_spec (Z.min (skip + len b) (len row) - Z.min skip (len row)) (len b)) as [E|E].
  - apply some_inj in H. subst row'. split.
    + rewrite !app_length, firstn_length, skipn_length. unfold len in *. lia.
    + apply Forall_app. split; [apply Forall_firstn', F|]. apply Forall_app. split; [exact B|apply Forall_skipn', F].
  - destruct (len b =? 1); [|discriminate]. apply some_inj in H. subst row'. split; assumption.
Qed.
Lemma at_isb d o b : isb d -> at_ d o = Some b -> 0 <= b < 256.
Proof. unfold at_, isb. destruct (o <? 0); [discriminate|]. intros F E. apply nth_error_In in E. rewrite Forall_forall in F. apply F, E. Qed.
Lemma lor_nonneg a b : 0 <= a -> 0 <= b -> 0 <= Z.lor a b. Proof. intros. apply Z.lor_nonneg. lia. Qed.
Lemma frombuffer_len d o n b : frombuffer d o n = Some b -> 0 <= n -> 0 <= o -> len b = n.
Proof.
  unfold frombuffer. destruct ((len d <? o) || (len d - o <? n)) eqn:E; [discriminate|]. apply orb_false_elim in E as [E1 E2]. rewrite Z.ltb_ge in E1, E2.
  intros H. apply some_inj in H. subst b. intros N O. unfold len in *. rewrite firstn_length, skipn_length. lia.
Qed.
Lemma row_loop_ok w bpp data : isb data -> forall fuel container width ofs row row', row_loop fuel container width (Z.of_nat bpp) data ofs row = Some row' -> 0 <= ofs ->
  row_ok w bpp row -> row_ok w bpp row'.
Proof.
  intros D. induction fuel as [|fuel IH]; intros container width ofs row row' H O R; cbn [row_loop] in H; [discriminate|].
  apply bind_some in H as ([[[fin n] skip] o] & E & H).
  assert (X : 0 <= n /\ 0 <= skip /\ 0 <= o).
  { destruct ((2 <=? container) && (256 <? width)).
    - apply bind_some in E as (b1 & E1 & E). apply bind_some in E as (b0 & E0 & E). apply bind_some in E as (b3 & E3 & E). apply bind_some in E as (b2 & E2 & E).
      apply some_inj in E. apply pair_inj in E as [E <-]. apply pair_inj in E as [E <-]. apply pair_inj in E as [_ <-].
      pose proof (at_isb _ _ _ D E0). pose proof (at_isb _ _ _ D E2). pose proof (at_isb _ _ _ D E1). pose proof (at_isb _ _ _ D E3).
      split; [|split; [|lia]]; apply lor_nonneg; try lia; apply Z.shiftl_nonneg; [apply Z.land_nonneg; lia|lia].
    - apply bind_some in E as (b0 & E0 & E). apply bind_some in E as (b1 & E1 & E).
      apply some_inj in E. apply pair_inj in E as [E <-]. apply pair_inj in E as [E <-]. apply pair_inj in E as [_ <-].
      pose proof (at_isb _ _ _ D E0). pose proof (at_isb _ _ _ D E1). split; [apply Z.land_nonneg; lia|lia]. }
  destruct X as (N & S & O'). apply bind_some in H as (b & B & H). apply bind_some in H as (r1 & A & H).
  assert (L : len b = n * Z.of_nat bpp) by (apply (frombuffer_len _ _ _ _ B); nia).
  assert (R1 : row_ok w bpp r1).
  { apply (assign_run_ok _ _ _ _ _ _ A S R). rewrite Nat2Z.id. apply chop_ok. unfold len in L. nia. }
  destruct fin; [apply some_inj in H; subst; exact R1|]. apply (IH _ _ _ _ _ H); [nia|exact R1].
Qed.
Lemma rd_n_nonneg {A} (rd : bytes -> option (A * bytes)) (P : A -> Prop) : (forall d a r, isb d -> rd d = Some (a, r) -> P a /\ isb r) ->
  forall n d l r, rd_n rd n d = Some (l, r) -> isb d -> Forall P l /\ List.length l = n.
Proof.
  intros Q. induction n as [|n IH]; intros d l r H D; cbn [rd_n] in H; [apply some_inj in H; apply pair_inj in H as [<- _]; split; [constructor|reflexivity]|].
  apply bind_some in H as ([a d1] & E & H). apply bind_some in H as ([l1 d2] & E1 & H). apply some_inj in H. apply pair_inj in H as [<- _].
  destruct (Q _ _ _ D E) as [Pa D1]. destruct (IH _ _ _ E1 D1) as [F L]. split; [constructor; assumption|cbn; lia].
Qed.
Lemma rd_H_nonneg d a r : isb d -> rd_H d = Some (a, r) -> 0 <= a /\ isb r.
Proof.
  destruct d as [|x [|y d]]; cbn [rd_H rd_B bind]; try discriminate. intros F H. apply some_inj in H. apply pair_inj in H as [<- <-]. inversion F as [|? ? ? F1]; subst. inversion F1; subst.
  split; [|assumption]. apply lor_nonneg; [lia|apply Z.shiftl_nonneg; lia].
Qed.
Lemma rd_I_nonneg d a r : isb d -> rd_I d = Some (a, r) -> 0 <= a /\ isb r.
Proof.
  destruct d as [|x [|y [|z [|t d]]]]; cbn [rd_I rd_B bind]; try discriminate. intros F H. apply some_inj in H. apply pair_inj in H as [<- <-].
  inversion F as [|? ? ? F1]; subst. inversion F1 as [|? ? ? F2]; subst. inversion F2 as [|? ? ? F3]; subst. inversion F3; subst.
  split; [|assumption]. repeat apply lor_nonneg; try apply Z.shiftl_nonneg; lia.
Qed.
Lemma g_bpp_nonneg g : 0 <= g_bpp g.
Proof. unfold g_bpp. destruct (_ =? 0), (_ =? 0), (_ =? 0); lia. Qed.
Lemma rows_loop_ok w bpp data : isb data -> forall container offsets img, rows_loop container (Z.of_nat w) (Z.of_nat bpp) data offsets = Some img -> Forall (fun o => 0 <= o) offsets ->
  List.length img = List.length offsets /\ Forall (row_ok w bpp) img.
Proof.
  intros D container. induction offsets as [|o l IH]; intros img H F; cbn [rows_loop] in H; [apply some_inj in H; subst; split; constructor|].
  apply bind_some in H as (row & R & H). apply bind_some in H as (rest & E & H). apply some_inj in H. subst img. inversion F as [|? ? O F']; subst. destruct (IH _ E F') as [L G].
  split; [cbn; lia|]. constructor; [|exact G]. apply (row_loop_ok _ _ _ D _ _ _ _ _ _ R O). rewrite !Nat2Z.id. split; [apply repeat_length|].
  apply Forall_forall. intros p I. apply repeat_spec in I. subst. apply repeat_length.
Qed.
Lemma decode_shape s container f img rest : decode_sprite s container f = Some (img, rest) -> isb f -> 0 <= g_width s -> 0 <= g_height s ->
  List.length img = Z.to_nat (g_height s) /\ Forall (row_ok (Z.to_nat (g_width s)) (Z.to_nat (g_bpp s))) img.
Proof.
  unfold decode_sprite. intros H F W Hh. apply bind_some in H as ([data f1] & D & H). assert (isb data) as DB.
  { unfold decode_data in D. apply decode_loop_isb in D; [tauto|constructor|exact F]. }
  destruct (negb (Z.land (g_type s) 8 =? 0)).
  - apply bind_some in H as (a & A & H). apply some_inj in H. apply pair_inj in H as [<- _]. unfold decode_chunked in A. cbn zeta in A.
    apply bind_some in A as ([offs r] & E & A). assert (Forall (fun o => 0 <= o) offs /\ List.length offs = Z.to_nat (g_height s)) as [FO LO].
    { destruct ((2 <=? container) && (65535 <? g_decomp s)); [apply (rd_n_nonneg _ _ rd_I_nonneg _ _ _ _ E DB)|apply (rd_n_nonneg _ _ rd_H_nonneg _ _ _ _ E DB)]. }
    rewrite <- (Z2Nat.id (g_width s)), <- (Z2Nat.id (g_bpp s)) in A by (exact W || apply g_bpp_nonneg). destruct (rows_loop_ok _ _ _ DB _ _ _ A FO) as [L G].
    split; [lia|exact G].
  - destruct (Z.eqb_spec (len data) (g_width s * g_height s * g_bpp s)) as [E|]; [|discriminate]. apply some_inj in H. apply pair_inj in H as [<- _]. pose proof (g_bpp_nonneg s).
    split; [apply chop_length|]. apply chop_rows; [etransitivity; [apply (@chop_length Z)|nia]|]. apply chop_ok. unfold len in E. nia.
Qed.
Lemma pixel_len s container f img rest u v : decode_sprite s container f = Some (img, rest) -> isb f -> 0 <= u < g_width s -> 0 <= v < g_height s ->
  List.length (pixel_at img u v) = Z.to_nat (g_bpp s).
Proof.
  intros H F U V. destruct (decode_shape _ _ _ _ _ H F ltac:(lia) ltac:(lia)) as [L G]. unfold pixel_at. rewrite Forall_forall in G.
  assert (I : In (nth (Z.to_nat v) img []) img) by (apply nth_In; lia). destruct (G _ I) as [LR P]. rewrite Forall_forall in P. apply P. apply nth_In. lia.
Qed.

(** ** Dictionaries of lists *)
Section Dict.
  Context {K V : Type} (eqb : K -> K -> bool) (Q : forall a b, eqb a b = true <-> a = b).
  Definition got (d : list (K * list V)) (k : K) : list V := match dict_get eqb d k with Some l => l | None => [] end.
  Lemma got_append d k v k' : got (dict_append eqb d k v) k' = if eqb k' k then got d k ++ [v] else got d k'.
  Proof.
    unfold got, dict_append. rewrite (get_set eqb Q). destruct (eqb k' k) eqn:E; reflexivity.
  Qed.
  Lemma got_fold (f : V -> K) : forall l d k, got (fold_left (fun d v => dict_append eqb d (f v) v) l d) k = got d k ++ filter (fun v => eqb k (f v)) l.
  Proof.
    induction l as [|v l IH]; intros d k; cbn [fold_left filter]; [rewrite app_nil_r; reflexivity|]. rewrite IH, got_append. destruct (eqb k (f v)) eqn:E; [|reflexivity].
    apply Q in E. subst. rewrite <- app_assoc. reflexivity.
  Qed.
  Lemma set_keys_incl d k (v : list V) x : In x (map fst (dict_set eqb d k v)) <-> x = k \/ In x (map fst d).
  Proof.
    induction d as [|[a b] d IH]; cbn [dict_set map fst In]; [intuition auto|]. destruct (eqb k a) eqn:E.
    - apply Q in E. subst. cbn. intuition auto.
    - cbn [map fst In]. rewrite IH. intuition auto.
  Qed.
  Lemma set_keys_nodup d k (v : list V) : NoDup (map fst d) -> NoDup (map fst (dict_set eqb d k v)).
  Proof.
    induction d as [|[a b] d IH]; intros N; cbn [dict_set map fst]; [constructor; [intros []|constructor]|]. inversion N as [|? ? A B]; subst. destruct (eqb k a) eqn:E.
    - apply Q in E. subst. constructor; assumption.
    - cbn [map fst]. constructor; [|apply IH, B]. rewrite set_keys_incl. intros [->|I]; [|exact (A I)]. assert (eqb k k = true) by (apply Q; reflexivity). congruence.
  Qed.
  Lemma fold_nodup (f : V -> K) : forall l d, NoDup (map fst d) -> NoDup (map fst (fold_left (fun d v => dict_append eqb d (f v) v) l d)).
  Proof. induction l as [|v l IH]; intros d N; cbn [fold_left]; [exact N|]. apply IH. apply set_keys_nodup, N. Qed.
  Lemma get_in d k (v : list V) : NoDup (map fst d) -> In (k, v) d -> dict_get eqb d k = Some v.
  Proof.
    induction d as [|[a b] d IH]; intros N I; [destruct I|]. cbn [dict_get]. inversion N as [|? ? A B]; subst. destruct I as [E|I].
    - apply pair_inj in E as [-> ->]. assert (eqb k k = true) as -> by (apply Q; reflexivity). reflexivity.
    - destruct (eqb k a) eqn:E; [|apply IH; assumption]. apply Q in E. subst. exfalso. apply A. apply (in_map fst) in I. exact I.
  Qed.
  Lemma get_key d k (v : list V) : dict_get eqb d k = Some v -> In (k, v) d.
  Proof.
    induction d as [|[a b] d IH]; cbn [dict_get]; [discriminate|]. destruct (eqb k a) eqn:E; [apply Q in E; subst; intros H; apply some_inj in H; subst; now left|]. intros H. right. apply IH, H.
  Qed.
  (** Every list is of its key, and not empty. *)
  Lemma fold_member (f : V -> K) l k m : In (k, m) (fold_left (fun d v => dict_append eqb d (f v) v) l []) -> m = filter (fun v => eqb k (f v)) l.
  Proof.
    intros I. pose proof (got_fold f l [] k) as G. unfold got in G at 1. rewrite (get_in _ _ _ (fold_nodup f l [] (NoDup_nil _)) I) in G. exact G.
  Qed.
  Lemma fold_perm (f : V -> K) : forall l d, Permutation (flat_map snd (fold_left (fun d v => dict_append eqb d (f v) v) l d)) (flat_map snd d ++ l).
  Proof.
    induction l as [|v l IH]; intros d; cbn [fold_left]; [rewrite app_nil_r; reflexivity|]. rewrite IH. change (v :: l) with ([v] ++ l). rewrite app_assoc. apply Permutation_app_tail.
    unfold dict_append. induction d as [|[a b] d IHd]; cbn [dict_set dict_get flat_map]; [cbn; reflexivity|]. destruct (eqb (f v) a) eqn:E.
    - cbn [flat_map snd]. rewrite <- !app_assoc. apply Permutation_app_head. apply Permutation_app_comm.
    - cbn [flat_map snd]. rewrite IHd, app_assoc. reflexivity.
  Qed.
End Dict.
Lemma beq_ok : forall a b, bytes_eq a b = true <-> a = b. Proof. exact bytes_eq_iff. Qed.

(** ** Painting *)
Definition in_cell (x y w h u v : Z) : Prop := x <= u < x + w /\ y <= v < y + h.
Lemma paste_in {A} (c : canvas A) x y w h p u v : in_cell x y w h u v -> paste c x y w h p u v = p (u - x) (v - y).
Proof. intros [[A1 A2] [B1 B2]]. unfold paste. apply Z.leb_le in A1, B1. apply Z.ltb_lt in A2, B2. rewrite A1, A2, B1, B2. reflexivity. Qed.
Lemma paste_out {A} (c : canvas A) x y w h p u v : ~ in_cell x y w h u v -> paste c x y w h p u v = c u v.
Proof.
  intros N. unfold paste. destruct ((x <=? u) && (u <? x + w) && (y <=? v) && (v <? y + h)) eqn:E; [|reflexivity]. exfalso. apply N. rewrite !andb_true_iff, !Z.leb_le, !Z.ltb_lt in E. unfold in_cell. tauto.
Qed.
Lemma rectangle_out {A} (c : canvas A) x0 y0 x1 y1 ink u v : ~ (x0 <= u <= x1 /\ y0 <= v <= y1) -> rectangle c x0 y0 x1 y1 ink u v = c u v.
Proof.
  intros N. unfold rectangle. destruct ((x0 <=? u) && (u <=? x1) && (y0 <=? v) && (v <=? y1)) eqn:E; [|reflexivity]. exfalso. apply N. rewrite !andb_true_iff, !Z.leb_le in E. tauto.
Qed.
Definition box (s : gfx) (x y u v : Z) : Prop := in_cell (x - 5) (y - 5) (g_width (f_s s) + 10) (g_height (f_s s) + 10) u v.
Lemma land_bit t n : 0 <= n -> (Z.land t (2 ^ n) =? 0) = negb (Z.testbit t n).
Proof. intros N. pose proof (flag_testbit t n N) as E. unfold flag in E. rewrite <- E, negb_involutive. reflexivity. Qed.
Lemma land_pos t m : 0 <= m -> (0 <? Z.land t m) = negb (Z.land t m =? 0).
Proof. intros M. assert (0 <= Z.land t m) by (apply Z.land_nonneg; lia). destruct (Z.eqb_spec (Z.land t m) 0) as [E|E]; [rewrite E; reflexivity|]. apply Z.ltb_lt. cbn. lia. Qed.
Lemma masked_bit t : (0 <? Z.land t 4) = Z.testbit t 2.
Proof. rewrite land_pos by lia. change 4 with (2 ^ 2). rewrite land_bit by lia. apply negb_involutive. Qed.
Lemma land3 t : Z.land t 3 = Z.b2z (Z.testbit t 0) + 2 * Z.b2z (Z.testbit t 1).
Proof. change 3 with (Z.ones 2). rewrite Z.land_ones by lia. rewrite !testbit_b2z by lia. change (2 ^ 0) with 1. change (2 ^ 1) with 2. change (2 ^ 2) with 4. Z.to_euclidean_division_equations; lia. Qed.
Lemma coloured_bits t : (0 <? Z.land t 3) = Z.testbit t 0 || Z.testbit t 1.
Proof. rewrite land3. destruct (Z.testbit t 0), (Z.testbit t 1); reflexivity. Qed.
Lemma alpha_bits s : alpha_only s = just_alpha (g_type (f_s s)).
Proof. unfold alpha_only, just_alpha. rewrite land3. destruct (Z.testbit _ 0), (Z.testbit _ 1); reflexivity. Qed.
Lemma bpp_bits g : g_bpp g = (if Z.testbit (g_type g) 0 then 3 else 0) + (if Z.testbit (g_type g) 1 then 1 else 0) + (if Z.testbit (g_type g) 2 then 1 else 0).
Proof.
  unfold g_bpp. change 1 with (2 ^ 0) at 1. change 2 with (2 ^ 1) at 2. change 4 with (2 ^ 2). rewrite !land_bit by lia.
  destruct (Z.testbit _ 0), (Z.testbit _ 1), (Z.testbit _ 2); reflexivity.
Qed.
(** One sprite changes nothing outside its box ... *)
Lemma paint_outside h1 h2 container s x y p p' : paint_sprite h1 h2 container s x y p = Some p' -> forall u v, ~ box s x y u v -> p_mask p' u v = p_mask p u v /\ p_colour p' u v = p_colour p u v.
Proof.
  unfold paint_sprite. intros H u v N. cbv zeta in H. apply bind_some in H as ([data r0] & D & H). apply bind_some in H as ([img rest] & E & H).
  destruct (_ =? _); [|discriminate]. apply some_inj in H. subst p'. cbn [p_mask p_colour].
  assert (C : ~ in_cell x y (g_width (f_s s)) (g_height (f_s s)) u v) by (unfold box, in_cell in *; lia).
  assert (R : ~ (x - 2 <= u <= x + g_width (f_s s) + 1 /\ y - 2 <= v <= y + g_height (f_s s) + 1)) by (unfold box, in_cell in *; lia).
  split.
  - destruct (0 <? _); [|reflexivity]. rewrite paste_out by exact C. destruct (if 1 <? _ then _ else _); [reflexivity|]. apply rectangle_out, R.
  - assert (X : forall b : bool, (if b then match (if 1 <? (match dict_get Z.eqb (p_count p) (h2 (h1 data) (g_xofs (f_s s)) (g_yofs (f_s s))) with Some n => n | None => 0 end) + 1 then 2%nat else if existsb (Z.eqb (h1 data)) (p_hashes p) then 1%nat else 0%nat) with
                               | O => p_colour p
                               | _ => rectangle (p_colour p) (x - 2) (y - 2) (x + g_width (f_s s) + 1) (y + g_height (f_s s) + 1)
                                   (nth (if 1 <? (match dict_get Z.eqb (p_count p) (h2 (h1 data) (g_xofs (f_s s)) (g_yofs (f_s s))) with Some n => n | None => 0 end) + 1 then 2%nat else if existsb (Z.eqb (h1 data)) (p_hashes p) then 1%nat else 0%nat) [[0; 0; 0; 0]; [255; 255; 0; 255]; [255; 0; 0; 255]] [])
                               end else p_colour p) u v = p_colour p u v).
    { intros b. destruct b; [|reflexivity]. destruct (if 1 <? _ then _ else _); [reflexivity|]. apply rectangle_out, R. }
    destruct (_ =? 3); [rewrite paste_out by exact C; apply X|]. destruct (_ =? 4); [rewrite paste_out by exact C; apply X|apply X].
Qed.
(** ... and shows its pixels. *)
Lemma paint_inside h1 h2 container s x y p p' : paint_sprite h1 h2 container s x y p = Some p' -> isb (f_pos s) -> alpha_only s = false ->
  exists img rest, decode_sprite (f_s s) container (f_pos s) = Some (img, rest) /\
  forall u v, 0 <= u < g_width (f_s s) -> 0 <= v < g_height (f_s s) ->
    (forall m, mask_of (g_type (f_s s)) (pixel_at img u v) = Some m -> p_mask p' (x + u) (y + v) = m) /\
    (forall k, colour_of (g_type (f_s s)) (pixel_at img u v) = Some k -> p_colour p' (x + u) (y + v) = k) /\
    (Z.testbit (g_type (f_s s)) 2 = false -> p_mask p' (x + u) (y + v) = p_mask p (x + u) (y + v)) /\
    (Z.testbit (g_type (f_s s)) 0 = false -> p_colour p' (x + u) (y + v) = p_colour p (x + u) (y + v)).
Proof.
  unfold paint_sprite. intros H B A. cbv zeta in H. apply bind_some in H as ([data r0] & D & H). apply bind_some in H as ([img rest] & E & H).
  destruct (_ =? _); [|discriminate]. apply some_inj in H. subst p'. exists img, rest. split; [exact E|]. intros u v U V. cbn [p_mask p_colour].
  assert (C : in_cell x y (g_width (f_s s)) (g_height (f_s s)) (x + u) (y + v)) by (unfold in_cell; lia).
  pose proof (pixel_len _ _ _ _ _ u v E B U V) as L. rewrite bpp_bits in L. rewrite masked_bit, bpp_bits. rewrite alpha_bits in A. unfold just_alpha in A.
  replace (x + u - x) with u by lia. split; [|split; [|split]].
  - unfold mask_of. intros m. destruct (Z.testbit _ 2); [|discriminate]. intros M. apply some_inj in M. rewrite paste_in by exact C.
    replace (x + u - x) with u by lia. replace (y + v - y) with v by lia. exact M.
  - unfold colour_of. intros k. destruct (Z.testbit _ 0); [|discriminate]. intros K. apply some_inj in K. cbn [negb andb] in A. subst k.
    destruct (Z.testbit (g_type (f_s s)) 1), (Z.testbit (g_type (f_s s)) 2);
    match goal with |- context [?a =? 3] => let w := eval cbv in a in change a with w end;
    match goal with |- context [?a =? 3] => let w := eval cbv in (a =? 3) in change (a =? 3) with w end; cbn match;
    try (match goal with |- context [?a =? 4] => let w := eval cbv in (a =? 4) in change (a =? 4) with w end; cbn match);
    rewrite paste_in by exact C; replace (x + u - x) with u by lia; replace (y + v - y) with v by lia; try reflexivity;
    (rewrite (firstn_S_nth 0 3); [reflexivity|]; rewrite L; cbn; lia).
  - intros ->. reflexivity.
  - intros T. rewrite T in *. cbn [negb] in A. rewrite andb_true_r in A. rewrite A. destruct (Z.testbit (g_type (f_s s)) 2); reflexivity.
Qed.
