(** Proofs for C36, C38 and C40. *)
From Coq Require Import ZArith List Bool String Permutation Lia.
From Verif Require Import Base BaseFacts RecordsModel PropModel Action0Model SpecContainer SpecProp Action0Proofs PropAccept LibModel SpecLib.
Import ListNotations.
Open Scope string_scope.
Open Scope list_scope.
Open Scope Z_scope.

(** ** combine_ranges *)
Fixpoint runs {V} (chunk f : Z) (vs : list V) (l : list (Z * V)) : list (Z * list V) :=
  match l with
  | [] => [(f, vs)]
  | (i, v) :: l => if (i =? f + len vs) && (len vs <? chunk) then runs chunk f (vs ++ [v]) l else (f, vs) :: runs chunk i [v] l
  end.
Lemma len_snoc : forall {V} (l : list V) x, len (l ++ [x]) = len l + 1.
Proof. intros. unfold len. rewrite app_length. cbn. lia. Qed.
Lemma loop_runs : forall {V} chunk (l : list (Z * V)) rs f vs,
  combine_loop chunk (Some (f + len vs - 1)) (len vs) (rs ++ [(f, vs)]) l = rs ++ runs chunk f vs l.
Proof.
  induction l as [|[i v] l IH]; intros rs f vs; [reflexivity|]. cbn [combine_loop runs].
  destruct (Z.eqb_spec i (f + len vs)) as [E|E]; cbn [andb].
  - replace (f + len vs - 1 =? i - 1) with true by (symmetry; apply Z.eqb_eq; lia). cbn [negb orb].
    destruct (Z.leb_spec chunk (len vs)) as [C|C].
    + replace (len vs <? chunk) with false by (symmetry; apply Z.ltb_ge; lia).
      specialize (IH (rs ++ [(f, vs)]) i [v]). change (len [v]) with 1 in IH. replace (i + 1 - 1) with i in IH by lia.
      etransitivity; [exact IH|]. rewrite <- app_assoc. reflexivity.
    + replace (len vs <? chunk) with true by (symmetry; apply Z.ltb_lt; lia).
      rewrite rev_app_distr. cbn [rev app]. rewrite rev_involutive.
      specialize (IH rs f (vs ++ [v])). rewrite len_snoc in IH. replace (f + (len vs + 1) - 1) with i in IH by lia. exact IH.
  - replace (f + len vs - 1 =? i - 1) with false by (symmetry; apply Z.eqb_neq; lia). cbn [negb orb].
    specialize (IH (rs ++ [(f, vs)]) i [v]). change (len [v]) with 1 in IH. replace (i + 1 - 1) with i in IH by lia.
    etransitivity; [exact IH|]. rewrite <- app_assoc. reflexivity.
Qed.
Lemma ranges_runs : forall {V} chunk (l : list (Z * V)),
  combine_ranges chunk l = match sort_pairs l with [] => [] | (i, v) :: r => runs chunk i [v] r end.
Proof.
  intros. unfold combine_ranges. destruct (sort_pairs l) as [|[i v] r]; [reflexivity|]. cbn [combine_loop negb orb app].
  pose proof (loop_runs chunk r [] i [v]) as H. change (len [v]) with 1 in H. replace (i + 1 - 1) with i in H by lia. exact H.
Qed.
Lemma numbered_app : forall {V} (a b : list V) f, numbered f (a ++ b) = numbered f a ++ numbered (f + len a) b.
Proof.
  induction a as [|x a IH]; intros b f; cbn [numbered app]; [unfold len; cbn [Datatypes.length]; now rewrite Z.add_0_r|].
  rewrite IH. f_equal. f_equal. f_equal. unfold len. cbn [Datatypes.length]. lia.
Qed.
Lemma runs_covered : forall {V} chunk (l : list (Z * V)) f vs, covered (runs chunk f vs l) = numbered f vs ++ l.
Proof.
  induction l as [|[i v] l IH]; intros f vs; cbn [runs]; [unfold covered; cbn; now rewrite app_nil_r|].
  destruct (Z.eqb_spec i (f + len vs)) as [E|E]; [destruct (len vs <? chunk)|]; cbn [andb].
  - rewrite IH, numbered_app. cbn [numbered]. rewrite <- app_assoc, E. reflexivity.
  - unfold covered. cbn [flat_map fst snd]. fold (covered (runs chunk i [v] l)). rewrite IH. reflexivity.
  - unfold covered. cbn [flat_map fst snd]. fold (covered (runs chunk i [v] l)). rewrite IH. reflexivity.
Qed.
Lemma insert_perm : forall {V} (e : Z * V) l, Permutation (insert_pair e l) (e :: l).
Proof.
  induction l as [|f l IH]; [apply Permutation_refl|]. cbn [insert_pair]. destruct (fst e <=? fst f); [apply Permutation_refl|].
  etransitivity; [apply perm_skip; exact IH|]. apply perm_swap.
Qed.
Lemma sort_perm : forall {V} (l : list (Z * V)), Permutation (sort_pairs l) l.
Proof.
  induction l as [|e l IH]; [apply Permutation_refl|]. unfold sort_pairs. cbn [fold_right]. fold (sort_pairs l).
  etransitivity; [apply insert_perm|]. apply perm_skip. exact IH.
Qed.
Lemma insert_asc : forall {V} (e : Z * V) l, ascending l -> ascending (insert_pair e l).
Proof.
  intros V e l H. induction H as [|f|f g l L H IH]; cbn [insert_pair].
  - apply as_one.
  - destruct (Z.leb_spec (fst e) (fst f)); apply as_cons; try apply as_one; lia.
  - destruct (Z.leb_spec (fst e) (fst f)); [apply as_cons; [assumption|apply as_cons; assumption]|].
    cbn [insert_pair] in IH. destruct (Z.leb_spec (fst e) (fst g)); apply as_cons; try assumption; lia.
Qed.
Lemma sort_asc : forall {V} (l : list (Z * V)), ascending (sort_pairs l).
Proof. induction l as [|e l IH]; [apply as_nil|]. apply insert_asc. exact IH. Qed.
Lemma ranges_covered : forall {V} chunk (l : list (Z * V)), covered (combine_ranges chunk l) = sort_pairs l.
Proof. intros. rewrite ranges_runs. destruct (sort_pairs l) as [|[i v] r]; [reflexivity|]. exact (runs_covered chunk r i [v]). Qed.
Lemma runs_len : forall {V} chunk (l : list (Z * V)) f vs, 1 <= len vs <= chunk ->
  Forall (fun r => 1 <= len (snd r) <= chunk) (runs chunk f vs l).
Proof.
  induction l as [|[i v] l IH]; intros f vs H; cbn [runs]; [apply Forall_cons; [assumption|apply Forall_nil]|].
  assert (O : 1 <= len [v] <= chunk) by (change (len [v]) with 1; lia).
  destruct (i =? f + len vs); [destruct (Z.ltb_spec (len vs) chunk)|]; cbn [andb].
  - apply IH. rewrite len_snoc. lia.
  - apply Forall_cons; [assumption|]. apply IH. exact O.
  - apply Forall_cons; [assumption|]. apply IH. exact O.
Qed.
Lemma ranges_len : forall {V} chunk (l : list (Z * V)), 1 <= chunk -> Forall (fun r => 1 <= len (snd r) <= chunk) (combine_ranges chunk l).
Proof.
  intros. rewrite ranges_runs. destruct (sort_pairs l) as [|[i v] r]; [apply Forall_nil|]. apply runs_len. change (len [v]) with 1. lia.
Qed.
Lemma runs_head : forall {V} chunk (l : list (Z * V)) f vs, exists vs' r, runs chunk f vs l = (f, vs') :: r.
Proof.
  induction l as [|[i v] l IH]; intros f vs; cbn [runs]; [eexists; eexists; reflexivity|].
  destruct ((i =? f + len vs) && (len vs <? chunk)); [apply IH|]. eexists. eexists. reflexivity.
Qed.
Lemma runs_split : forall {V} chunk (l : list (Z * V)) f vs, 1 <= len vs <= chunk -> well_split chunk (runs chunk f vs l).
Proof.
  induction l as [|[i v] l IH]; intros f vs H; cbn [runs]; [apply ws_one|].
  assert (O : 1 <= len [v] <= chunk) by (change (len [v]) with 1; lia).
  destruct (Z.eqb_spec i (f + len vs)) as [E|E]; [destruct (Z.ltb_spec (len vs) chunk)|]; cbn [andb].
  - apply IH. rewrite len_snoc. lia.
  - pose proof (IH i [v] O) as W. destruct (runs_head chunk l i [v]) as (vs' & r & R). rewrite R in *. apply ws_cons; [right; lia|exact W].
  - pose proof (IH i [v] O) as W. destruct (runs_head chunk l i [v]) as (vs' & r & R). rewrite R in *. apply ws_cons; [left; lia|exact W].
Qed.
Lemma ranges_split : forall {V} chunk (l : list (Z * V)), 1 <= chunk -> well_split chunk (combine_ranges chunk l).
Proof.
  intros. rewrite ranges_runs. destruct (sort_pairs l) as [|[i v] r]; [apply ws_nil|]. apply runs_split. change (len [v]) with 1. lia.
Qed.

(** The records *)
Lemma covered_In : forall {V} (rs : list (Z * list V)) e, In e (covered rs) <-> exists f vs, In (f, vs) rs /\ In e (numbered f vs).
Proof.
  intros. unfold covered. rewrite in_flat_map. split.
  - intros ([f vs] & I & H). exists f, vs. split; assumption.
  - intros (f & vs & I & H). exists (f, vs). split; assumption.
Qed.
Lemma numbered_map : forall {V W} (g : V -> W) vs f, numbered f (map g vs) = map (fun e => (fst e, g (snd e))) (numbered f vs).
Proof. induction vs as [|v vs IH]; intro f; [reflexivity|]. cbn [map numbered]. rewrite IH. reflexivity. Qed.
Lemma ranges_In : forall {V} chunk (l : list (Z * V)) e, In e (covered (combine_ranges chunk l)) <-> In e l.
Proof.
  intros. rewrite ranges_covered. split; apply Permutation_in; [apply sort_perm|apply Permutation_sym, sort_perm].
Qed.
Lemma range_ids : forall {V} chunk (l : list (Z * V)) f vs, 1 <= chunk -> In (f, vs) (combine_ranges chunk l) -> exists v, In (f, v) l.
Proof.
  intros V chunk l f vs C H. pose proof (proj1 (Forall_forall _ _) (ranges_len chunk l C) _ H) as L. cbn in L.
  destruct vs as [|v vs]; [unfold len in L; cbn in L; lia|]. exists v. apply (ranges_In chunk).
  apply covered_In. exists f, (v :: vs). split; [assumption|]. left. reflexivity.
Qed.
Lemma firstn_len : forall {A} (l : list A), firstn (Z.to_nat (len l)) l = l.
Proof. intros. rewrite len_nat. apply firstn_all. Qed.
Lemma codes_const : forall f v w b vs, codes f v w b -> exists ws bs, values_code f (map (fun _ : unit => v) vs) ws bs.
Proof.
  intros f v w b vs H. induction vs as [|[] vs (ws & bs & IH)]; [eexists; eexists; apply vc_nil|].
  eexists. eexists. cbn [map]. apply vc_cons; eassumption.
Qed.
Lemma len_map : forall {A B} (f : A -> B) l, len (map f l) = len l.
Proof. intros. unfold len. now rewrite map_length. Qed.
Lemma props_code_all : forall ft n props,
  (forall name vs, In (name, vs) props -> exists code f ws b, by_name ft name = Some (code, f) /\ len vs = n /\ values_code f vs ws b) ->
  exists qs b, props_code ft n props qs b.
Proof.
  induction props as [|[name vs] props IH]; intro H; [eexists; eexists; apply pc_nil|].
  destruct (H name vs (or_introl eq_refl)) as (code & f & ws & b & N & L & C).
  destruct IH as (qs & c & IH); [intros; apply H; right; assumption|].
  exists ((name, ws) :: qs), (code :: b ++ c). apply pc_cons with f.
  - apply by_name_has. exact N.
  - lia.
  - rewrite <- L, firstn_len. exact C.
  - exact IH.
Qed.

(** ** Trains *)
Lemma total_app : forall a b, total (a ++ b) = total a + total b.
Proof. induction a as [|x a IH]; intro b; [reflexivity|]. cbn [total fold_right app]. fold (total (a ++ b)). fold (total a). rewrite IH. lia. Qed.

(** ** Brightness *)
Lemma combined_sum : forall r g b k, 0 <= r <= 255 -> 0 <= g <= 255 -> 0 <= b <= 255 ->
  Z.lor (Z.lor (Z.shiftl r 32) (Z.shiftl g 16)) b * k = (r * k) * 4294967296 + (g * k) * 65536 + b * k.
Proof.
  intros r g b k R G B.
  replace (Z.lor (Z.lor (Z.shiftl r 32) (Z.shiftl g 16)) b) with (r * 4294967296 + g * 65536 + b); [ring|].
  replace (Z.lor (Z.shiftl r 32) (Z.shiftl g 16)) with (Z.shiftl (Z.lor (Z.shiftl r 16) g) 16).
  - rewrite (Z.lor_comm _ b), (lor_shift b _ 16) by lia. rewrite (Z.lor_comm _ g), (lor_shift g r 16) by lia. lia.
  - rewrite Z.shiftl_lor, Z.shiftl_shiftl by lia. reflexivity.
Qed.
Lemma divs : forall R G B, 0 <= R < 65536 -> 0 <= G < 65536 -> 0 <= B < 65536 ->
  let c := R * 4294967296 + G * 65536 + B in
  Z.land (Z.shiftr c 39) 511 = R / 128 /\ Z.land (Z.shiftr c 23) 511 = G / 128 /\ Z.land (Z.shiftr c 7) 511 = B / 128.
Proof.
  intros R G B HR HG HB c. change 511 with (Z.ones 9). rewrite !Z.land_ones, !Z.shiftr_div_pow2 by lia.
  change (2 ^ 39) with 549755813888. change (2 ^ 23) with 8388608. change (2 ^ 7) with 128. change (2 ^ 9) with 512.
  unfold c. split; [|split]; lia.
Qed.
Lemma land_bit : forall c n, 0 <= n -> (Z.land c (2 ^ n) = 0 <-> (c / 2 ^ n) mod 2 = 0).
Proof.
  intros c n N. rewrite <- Z.testbit_false by assumption. split; intro H.
  - assert (X : Z.testbit (Z.land c (2 ^ n)) n = false) by (rewrite H; apply Z.bits_0).
    rewrite Z.land_spec, Z.pow2_bits_true, andb_true_r in X by assumption. exact X.
  - apply Z.bits_inj'. intros m M. rewrite Z.bits_0, Z.land_spec, Z.pow2_bits_eqb by assumption.
    destruct (Z.eqb_spec n m) as [<-|_]; [rewrite H; reflexivity|apply andb_false_r].
Qed.
Lemma mask : forall R G B, 0 <= R < 65536 -> 0 <= G < 65536 -> 0 <= B < 65536 ->
  (Z.land (R * 4294967296 + G * 65536 + B) 140739635871744 =? 0) = true <-> R < 32768 /\ G < 32768 /\ B < 32768.
Proof.
  intros R G B HR HG HB. rewrite Z.eqb_eq. change 140739635871744 with (Z.lor (2 ^ 47) (Z.lor (2 ^ 31) (2 ^ 15))).
  rewrite !Z.land_lor_distr_r, !Z.lor_eq_0_iff, !land_bit by lia.
  change (2 ^ 47) with 140737488355328. change (2 ^ 31) with 2147483648. change (2 ^ 15) with 32768.
  lia.
Qed.
Lemma brightness_eq : forall r g b k, colour_ok (r, g, b) -> 0 <= k <= 255 -> k <> 128 ->
  let x := scaled r k in let y := scaled g k in let z := scaled b k in
  adjust_brightness (r, g, b) k =
  if (x <=? 255) && (y <=? 255) && (z <=? 255) then (x, y, z)
  else let o := (excess x + excess y + excess z) / 2 in
    let adj v := if 255 <=? v then 255 else Z.min (v + o * (255 - v) / 256) 255 in (adj x, adj y, adj z).
Proof.
  intros r g b k (R & G & B) K N x y z. unfold adjust_brightness. rewrite (proj2 (Z.eqb_neq k 128) N).
  rewrite combined_sum by assumption.
  assert (HR : 0 <= r * k < 65536) by nia. assert (HG : 0 <= g * k < 65536) by nia. assert (HB : 0 <= b * k < 65536) by nia.
  destruct (divs _ _ _ HR HG HB) as (D1 & D2 & D3). rewrite D1, D2, D3. clear D1 D2 D3.
  fold (scaled r k) (scaled g k) (scaled b k). fold x y z.
  assert (M : (Z.land (r * k * 4294967296 + g * k * 65536 + b * k) 140739635871744 =? 0) = (x <=? 255) && (y <=? 255) && (z <=? 255)).
  { apply eq_true_iff_eq. rewrite (mask _ _ _ HR HG HB), !andb_true_iff, !Z.leb_le. unfold x, y, z, scaled. lia. }
  rewrite M. destruct ((x <=? 255) && (y <=? 255) && (z <=? 255)); [reflexivity|].
  assert (E : forall v, (if 255 <? v then v - 255 else 0) = excess v).
  { intro v. unfold excess. destruct (Z.ltb_spec 255 v); lia. }
  rewrite !E. reflexivity.
Qed.
