(** Proofs about SpriteSheet.make_image. *)
From Coq Require Import ZArith List Bool Lia Arith.
From Verif Require Import Base BaseFacts TableModel SpecTable.
Import ListNotations.
Open Scope Z_scope.

Lemma nth_error_skip {A} (l : list A) : forall a m, nth_error (skipn a l) m = nth_error l (a + m).
Proof. induction l as [|x r IH]; intros [|a] m; cbn; try reflexivity; [destruct m; reflexivity|apply IH]. Qed.
Lemma nth_error_first {A} (l : list A) : forall n m, (m < n)%nat -> nth_error (firstn n l) m = nth_error l m.
Proof. induction l as [|x r IH]; intros [|n] [|m] H; cbn; try reflexivity; try lia. apply IH. lia. Qed.
Lemma firstn_next {A} (l : list A) : forall m x, nth_error l m = Some x -> firstn (S m) l = firstn m l ++ [x].
Proof. induction l as [|y r IH]; intros [|m] x E; cbn in *; try discriminate; [congruence|]. f_equal. apply IH, E. Qed.
Lemma nth_error_slice l i c m : (m < c)%nat -> nth_error (slice l i c) m = nth_error l (i + m).
Proof. intros H. unfold slice. rewrite nth_error_first by exact H. apply nth_error_skip. Qed.

Section Sheet.
  Context (look : Z -> dims) (l : list Z) (p : Z) (c : nat).
  Notation w s := (sp_w (look s)).
  Notation h s := (sp_h (look s)).
  Hypothesis p0 : 0 <= p.
  Hypothesis c0 : (0 < c)%nat.
  Hypothesis size : forall s, In s l -> 0 <= w s /\ 0 <= h s.

  Definition row (k : nat) : list Z := slice l (k * c) c.
  Definition tot (r : list Z) : Z := fold_right (fun s a => w s + p + a) 0 r.
  Fixpoint yk (k : nat) : Z := match k with O => p | S k => yk k + (p + max_h look (row k)) end.
  Definition xi (i : nat) : Z := p + tot (firstn (i mod c) (row (i / c))).
  Definition yi (i : nat) : Z := yk (i / c).

  Lemma tot_app a b : tot (a ++ b) = tot a + tot b.
  Proof. unfold tot. induction a as [|x a IH]; cbn; lia. Qed.
  Lemma tot_nonneg r : (forall s, In s r -> 0 <= w s) -> 0 <= tot r.
  Proof. induction r as [|x r IH]; cbn; intros H; [lia|]. pose proof (H x (or_introl eq_refl)).
    assert (0 <= tot r) by (apply IH; auto). unfold tot in *. lia. Qed.
  Lemma sum_w_from r : forall a, fold_left (fun a s => a + w s) r a = a + (tot r - len r * p).
  Proof. induction r as [|x r IH]; intros a; cbn [fold_left]; [unfold len; cbn; lia|].
    rewrite IH. unfold len. cbn [length tot fold_right]. unfold tot. lia. Qed.
  Lemma sum_w_tot r : sum_w look r = tot r - len r * p.
  Proof. unfold sum_w. rewrite sum_w_from. lia. Qed.
  Lemma max_h_from r : forall a, a <= fold_left (fun a s => Z.max a (h s)) r a
     /\ forall s, In s r -> h s <= fold_left (fun a s => Z.max a (h s)) r a.
  Proof. induction r as [|x r IH]; intros a; cbn [fold_left]; [split; [lia|intros s []]|].
    destruct (IH (Z.max a (h x))) as [M N]. split; [lia|]. intros s [<-|I]; [lia|auto]. Qed.
  Lemma max_h_in r s : In s r -> h s <= max_h look r.
  Proof. destruct r as [|x r]; [intros []|]. cbn. destruct (max_h_from r (h x)) as [M N].
    intros [<-|I]; auto. Qed.
  Lemma row_in k s : In s (row k) -> In s l.
  Proof. unfold row, slice. intros I. rewrite <- (firstn_skipn (k * c) l). apply in_or_app. right.
    rewrite <- (firstn_skipn c (skipn (k * c) l)). apply in_or_app. left. exact I. Qed.
  Lemma max_h_nonneg k : 0 <= max_h look (row k).
  Proof. destruct (row k) as [|s r] eqn:E; [cbn; lia|]. rewrite <- E.
    assert (I : In s (row k)) by (rewrite E; left; reflexivity).
    pose proof (max_h_in _ _ I). destruct (size s (row_in _ _ I)). lia. Qed.
  Lemma row_len k : (length (row k) <= c)%nat.
  Proof. unfold row, slice. rewrite firstn_length. lia. Qed.

  Lemma at_row i s : nth_error l i = Some s -> nth_error (row (i / c)) (i mod c) = Some s.
  Proof. intros E. unfold row. rewrite nth_error_slice by (apply Nat.mod_upper_bound; lia).
    rewrite <- E. f_equal. rewrite (Nat.div_mod i c) at 3 by lia. lia. Qed.
  Lemma in_row i s : nth_error l i = Some s -> In s (row (i / c)).
  Proof. intros E. apply nth_error_In with (n := (i mod c)%nat). apply at_row, E. Qed.

  Lemma yk_mono a b : (a <= b)%nat -> yk a <= yk b.
  Proof. induction 1 as [|b L IH]; [lia|]. cbn. pose proof (max_h_nonneg b). lia. Qed.
  Lemma p_yk k : p <= yk k.
  Proof. change p with (yk 0). apply yk_mono. lia. Qed.

  Lemma tot_first m n r : (forall s, In s r -> 0 <= w s) -> (m <= n)%nat -> tot (firstn m r) <= tot (firstn n r).
  Proof. intros N L. replace (firstn m r) with (firstn m (firstn n r)) by (rewrite firstn_firstn; f_equal; lia).
    set (q := firstn n r). assert (forall s, In s q -> 0 <= w s) as Q.
    { intros s I. apply N. rewrite <- (firstn_skipn n r). apply in_or_app. left. exact I. }
    rewrite <- (firstn_skipn m q) at 2. rewrite tot_app.
    assert (0 <= tot (skipn m q)); [|lia]. apply tot_nonneg. intros s I. apply Q.
    rewrite <- (firstn_skipn m q). apply in_or_app. right. exact I. Qed.

  Lemma step_right i s n : nth_error l i = Some s -> (i mod c < n)%nat ->
    xi i + w s + p <= p + tot (firstn n (row (i / c))).
  Proof.
    intros E L. unfold xi.
    assert (tot (firstn (S (i mod c)) (row (i / c))) = tot (firstn (i mod c) (row (i / c))) + (w s + p)) as H.
    { rewrite (firstn_next _ _ _ (at_row i s E)), tot_app. cbn. lia. }
    assert (tot (firstn (S (i mod c)) (row (i / c))) <= tot (firstn n (row (i / c)))).
    { apply tot_first; [|lia]. intros x I. apply size, (row_in _ _ I). }
    lia.
  Qed.

  Definition rect_of i s : rect := (xi i, yi i, w s, h s).

  Lemma apart_lt i j s s' : nth_error l i = Some s -> nth_error l j = Some s' -> (i < j)%nat ->
    apart p (rect_of i s) (rect_of j s').
  Proof.
    intros E E' L. unfold apart, rect_of.
    assert (i / c <= j / c)%nat as Q by (apply Nat.div_le_mono; lia).
    destruct (Nat.eq_dec (i / c) (j / c)) as [D|D].
    - left. pose proof (Nat.div_mod i c ltac:(lia)). pose proof (Nat.div_mod j c ltac:(lia)).
      assert (i mod c < j mod c)%nat as M by (rewrite D in *; lia).
      pose proof (step_right i s _ E M) as S. unfold xi at 2. rewrite <- D. exact S.
    - right. right. left. unfold yi.
      pose proof (yk_mono (S (i / c)) (j / c) ltac:(lia)) as M. cbn [yk] in M.
      pose proof (max_h_in _ _ (in_row i s E)). lia.
  Qed.

  Lemma apart_sym a b : apart p a b -> apart p b a.
  Proof. destruct a as [[[x y] ww] hh], b as [[[x' y'] w'] h']. cbn. tauto. Qed.
  Lemma apart_ne i j s s' : nth_error l i = Some s -> nth_error l j = Some s' -> i <> j ->
    apart p (rect_of i s) (rect_of j s').
  Proof. intros E E' N. destruct (Nat.lt_ge_cases i j); [apply apart_lt; auto|].
    apply apart_sym, apart_lt; auto. lia. Qed.

  (** ** The first loop *)
  Definition rows : nat := ((length l + c - 1) / c)%nat.

  Lemma measure_from : forall n a w0 lo, 
    fold_left (fun '(w, h, lineofs) i =>
                 (Z.max w (sum_w look (slice l i c)), h + (p + max_h look (slice l i c)), lineofs ++ [h]))
              (map (fun k => (k * c)%nat) (seq a n)) (w0, yk a, lo)
    = (fold_left (fun w k => Z.max w (sum_w look (row k))) (seq a n) w0, yk (a + n), lo ++ map yk (seq a n)).
  Proof.
    induction n as [|n IH]; intros a w0 lo; cbn [seq map fold_left].
    - rewrite app_nil_r. f_equal. f_equal. f_equal. lia.
    - change (yk a + (p + max_h look (slice l (a * c) c))) with (yk (S a)). rewrite IH.
      rewrite <- app_assoc. cbn [app]. do 2 f_equal. f_equal. lia.
  Qed.

  Definition max_w : Z := fold_left (fun w k => Z.max w (sum_w look (row k))) (seq 0 rows) 0.
  Lemma measure_eq : measure look l p c = (max_w, yk rows, map yk (seq 0 rows)).
  Proof. unfold measure, steps. fold rows. apply (measure_from rows 0 0 []). Qed.

  Lemma fold_max f ks : forall a, a <= fold_left (fun w (k : nat) => Z.max w (f k)) ks a
     /\ forall k, In k ks -> f k <= fold_left (fun w k => Z.max w (f k)) ks a.
  Proof. induction ks as [|x r IH]; intros a; cbn [fold_left]; [split; [lia|intros s []]|].
    destruct (IH (Z.max a (f x))) as [M N]. split; [lia|]. intros s [<-|I]; [lia|auto]. Qed.
  Lemma max_w_nonneg : 0 <= max_w.
  Proof. exact (proj1 (fold_max (fun k => sum_w look (row k)) (seq 0 rows) 0)). Qed.
  Lemma max_w_row k : (k < rows)%nat -> sum_w look (row k) <= max_w.
  Proof. intros L. apply (proj2 (fold_max (fun k => sum_w look (row k)) (seq 0 rows) 0)). apply in_seq. lia. Qed.

  Lemma in_rows i : (i < length l)%nat -> (i / c < rows)%nat.
  Proof. intros L. unfold rows. apply Nat.div_lt_upper_bound; [lia|].
    pose proof (Nat.div_mod (length l + c - 1) c ltac:(lia)) as D.
    pose proof (Nat.mod_upper_bound (length l + c - 1) c ltac:(lia)). lia. Qed.

  Lemma inside_all i s : nth_error l i = Some s ->
    inside p (max_w + (Z.of_nat c + 1) * p) (yk rows) (rect_of i s).
  Proof.
    intros E. assert (i < length l)%nat as L by (apply nth_error_Some; congruence).
    pose proof (in_rows i L) as R. unfold inside, rect_of. split; [|split; [|split]].
    - unfold xi. assert (0 <= tot (firstn (i mod c) (row (i / c)))); [|lia]. apply tot_nonneg.
      intros x I. apply size, (row_in (i / c)). rewrite <- (firstn_skipn (i mod c) (row (i / c))).
      apply in_or_app. left. exact I.
    - pose proof (Nat.mod_upper_bound i c ltac:(lia)) as U.
      pose proof (step_right i s c E U) as S. rewrite firstn_all2 in S by apply row_len.
      pose proof (max_w_row _ R) as M. rewrite sum_w_tot in M.
      pose proof (row_len (i / c)). unfold len in M.
      assert (Z.of_nat (length (row (i / c))) * p <= Z.of_nat c * p) by (apply Z.mul_le_mono_nonneg_r; lia). lia.
    - apply p_yk.
    - unfold yi. pose proof (yk_mono (S (i / c)) rows ltac:(lia)) as M. cbn [yk] in M.
      pose proof (max_h_in _ _ (in_row i s E)). lia.
  Qed.

  (** ** The second loop *)
  Definition within (px py : Z) (r : rect) : Prop :=
    let '(x, y, ww, hh) := r in x <= px < x + ww /\ y <= py < y + hh.

  Definition inv (pos0 : Z -> option (Z * Z)) (n : nat) (pos : Z -> option (Z * Z)) (at_ : Z -> Z -> Z) : Prop :=
    (forall j s, (j < n)%nat -> nth_error l j = Some s -> reads at_ (xi j) (yi j) (w s) (h s) (sp_pix (look s)))
    /\ (forall j s, (j < n)%nat -> nth_error l j = Some s ->
          exists j', (j' < n)%nat /\ nth_error l j' = Some s /\ pos s = Some (xi j', yi j'))
    /\ (forall s, (forall j, (j < n)%nat -> nth_error l j <> Some s) -> pos s = pos0 s)
    /\ (forall px py, (forall j s, (j < n)%nat -> nth_error l j = Some s -> ~ within px py (rect_of j s)) -> at_ px py = 255).

  Lemma draw_out s x y at_ px py : ~ within px py (x, y, w s, h s) -> draw look s x y at_ px py = at_ px py.
  Proof. unfold within, draw. intros N.
    destruct ((x <=? px) && (px <? x + w s) && (y <=? py) && (py <? y + h s)) eqn:B; [|reflexivity].
    rewrite !andb_true_iff, !Z.leb_le, !Z.ltb_lt in B. exfalso. apply N. lia. Qed.
  Lemma draw_in s x y at_ i j : 0 <= i < w s -> 0 <= j < h s -> draw look s x y at_ (x + i) (y + j) = sp_pix (look s) i j.
  Proof. intros I J. unfold draw.
    assert ((x <=? x + i) && (x + i <? x + w s) && (y <=? y + j) && (y + j <? y + h s) = true) as ->.
    { rewrite !andb_true_iff, !Z.leb_le, !Z.ltb_lt. lia. }
    f_equal; lia. Qed.

  Lemma inv_step pos0 i s pos at_ : nth_error l i = Some s -> inv pos0 i pos at_ ->
    inv pos0 (S i) (fun o => if o =? s then Some (xi i, yi i) else pos o) (draw look s (xi i) (yi i) at_).
  Proof.
    intros E (R & P & U & B). split; [|split; [|split]].
    - intros j s' L E'. destruct (Nat.eq_dec j i) as [->|N].
      + assert (s' = s) by congruence. subst s'. intros a b Ha Hb. apply draw_in; assumption.
      + intros a b Ha Hb. rewrite draw_out; [apply (R j s'); [lia|assumption|assumption|assumption]|].
        pose proof (apart_ne i j s s' E E' ltac:(lia)) as A. unfold apart, rect_of in A. unfold within. lia.
    - intros j s' L E'. destruct (s' =? s) eqn:Q.
      + apply Z.eqb_eq in Q. subst s'. exists i. split; [lia|]. split; [exact E|reflexivity].
      + apply Z.eqb_neq in Q. assert (j <> i) by (intros ->; congruence).
        destruct (P j s' ltac:(lia) E') as (j' & L' & E2 & P2). exists j'. split; [lia|]. split; [exact E2|exact P2].
    - intros s' N. assert (s' =? s = false) as -> by (apply Z.eqb_neq; intros ->; apply (N i); [lia|exact E]).
      apply U. intros j L. apply N. lia.
    - intros px py N. rewrite draw_out by (apply (N i s); [lia|exact E]). apply B. intros j s' L. apply N. lia.
  Qed.

  Lemma xi_start i : (i mod c = 0)%nat -> xi i = p.
  Proof. intros E. unfold xi. rewrite E. cbn. lia. Qed.
  Lemma xi_next i s : nth_error l i = Some s -> (S i mod c <> 0)%nat -> xi (S i) = xi i + (w s + p).
  Proof.
    intros E N. pose proof (Nat.div_mod i c ltac:(lia)) as D. pose proof (Nat.mod_upper_bound i c ltac:(lia)) as U.
    assert (S (i mod c) < c)%nat as L.
    { destruct (Nat.eq_dec (S (i mod c)) c) as [Q|Q]; [|lia]. exfalso. apply N.
      replace (S i) with ((i / c + 1) * c)%nat by (rewrite D at 2; lia). apply Nat.mod_mul. lia. }
    assert (S i / c = i / c /\ S i mod c = S (i mod c))%nat as [Q M].
    { split; [symmetry; apply (Nat.div_unique _ _ _ (S (i mod c)))|symmetry; apply (Nat.mod_unique _ _ (i / c))]; lia. }
    unfold xi. rewrite Q, M, (firstn_next _ _ _ (at_row i s E)), tot_app. cbn. lia.
  Qed.

  Lemma place_inv pos0 : forall r pre x pos at_, l = pre ++ r ->
    (length pre mod c <> 0 -> x = xi (length pre))%nat -> inv pos0 (length pre) pos at_ ->
    exists pos' at', place look r p c (map yk (seq 0 rows)) (length pre) x pos at_ = Some (pos', at')
                     /\ inv pos0 (length l) pos' at'.
  Proof.
    induction r as [|s r IH]; intros pre x pos at_ L X I; cbn [place].
    - rewrite app_nil_r in L. subst pre. eauto.
    - assert (E : nth_error l (length pre) = Some s).
      { rewrite L, nth_error_app2, Nat.sub_diag by lia. reflexivity. }
      assert (length pre < length l)%nat as Lt by (apply nth_error_Some; congruence).
      assert (nth_error (map yk (seq 0 rows)) (length pre / c) = Some (yi (length pre))) as ->.
      { unfold yi. apply map_nth_error.
        rewrite (nth_error_nth' _ 0%nat) by (rewrite seq_length; apply in_rows; exact Lt).
        rewrite seq_nth by (apply in_rows; exact Lt). reflexivity. }
      cbn [bind].
      assert ((if Nat.eqb (length pre mod c) 0 then p else x) = xi (length pre)) as ->.
      { destruct (Nat.eqb (length pre mod c) 0) eqn:Q.
        - symmetry. apply xi_start, Nat.eqb_eq, Q.
        - apply X. apply Nat.eqb_neq. exact Q. }
      pose proof (IH (pre ++ [s]) (xi (length pre) + (w s + p))
        (fun o => if o =? s then Some (xi (length pre), yi (length pre)) else pos o)
        (draw look s (xi (length pre)) (yi (length pre)) at_)) as H.
      replace (length (pre ++ [s])) with (S (length pre)) in H by (rewrite app_length; cbn; lia).
      apply H.
      + rewrite <- app_assoc. exact L.
      + intros N. symmetry. apply xi_next; assumption.
      + apply inv_step; assumption.
  Qed.

  Lemma make_image_inv pos0 : exists pos' at',
    make_image look l p c pos0 = Some (pos', mkImage (max_w + (Z.of_nat c + 1) * p) (yk rows) at')
    /\ inv pos0 (length l) pos' at'.
  Proof.
    unfold make_image. assert (Nat.ltb 0 c = true) as -> by (apply Nat.ltb_lt; exact c0).
    rewrite measure_eq. cbn [bind].
    assert ((0 <=? max_w + (Z.of_nat c + 1) * p) && (0 <=? yk rows) = true) as ->.
    { pose proof max_w_nonneg. pose proof (p_yk rows). rewrite andb_true_iff, !Z.leb_le.
      assert (0 <= (Z.of_nat c + 1) * p) by (apply Z.mul_nonneg_nonneg; lia). lia. }
    destruct (place_inv pos0 l [] 0 pos0 (fun _ _ => 255)) as (pos' & at' & E & I).
    - reflexivity.
    - cbn. intros N. exfalso. apply N. apply Nat.mod_0_l. lia.
    - split; [|split; [|split]]; intros; cbn in *; try lia; reflexivity.
    - cbn [length] in E. rewrite E. cbn [bind]. eauto.
  Qed.
End Sheet.
