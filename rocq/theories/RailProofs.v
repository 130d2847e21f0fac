(** Proofs for C39. *)
From Coq Require Import ZArith List Bool String Lia.
From Verif Require Import Base BaseFacts RecordsModel RecordsProofs Action14Model PropModel Action0Model SpecProp PropAccept Action0Proofs RailtypeModel SpecRail.
Import ListNotations.
Open Scope string_scope.
Open Scope list_scope.
Open Scope Z_scope.

(** ** Playing *)
Lemma after_label_len : forall n l r, after_label n l = Some r -> (length r < length l)%nat.
Proof.
  induction l as [|x l IH]; intros r H; cbn [after_label] in H; [discriminate|].
  destruct (is_label n x); [injection H as <-; cbn; lia|]. specialize (IH r H). cbn. lia.
Qed.
Lemma jump_len : forall n l, (length (jump n l) <= length l)%nat.
Proof.
  intros. unfold jump. destruct (after_label n l) as [r|] eqn:E; [apply after_label_len in E; lia|].
  destruct (n =? 0); [cbn; lia|]. rewrite skipn_length. lia.
Qed.
Lemma play_n_enough : forall avail n m g l, (length l <= n)%nat -> (length l <= m)%nat -> play_n avail n g l = play_n avail m g l.
Proof.
  induction n as [|n IH]; intros m g l N M.
  - destruct l; [|cbn in N; lia]. destruct m; reflexivity.
  - destruct m as [|m]; [destruct l; [reflexivity|cbn in M; lia]|]. destruct l as [|r l]; [reflexivity|]. cbn [play_n].
    cbn [length] in N, M. destruct (skips avail (patched g r)) as [k|].
    + apply IH; pose proof (jump_len k l); lia.
    + apply IH; lia.
Qed.
Lemma play_cons : forall avail g r l, play avail g (r :: l) =
  match skips avail (patched g r) with
  | Some n => play avail (mkGame (g_param g) [] (g_table g)) (jump n l)
  | None => play avail (exec g (patched g r)) l
  end.
Proof.
  intros. unfold play at 1. cbn [length play_n]. destruct (skips avail (patched g r)) as [k|]; [|reflexivity].
  apply play_n_enough; [apply jump_len|lia].
Qed.

(** ** One list *)
Definition is4 (b : bytes) : Prop := length b = 4%nat.
Definition recD (p : Z) (rt : bytes) : bytes := [13; p; 0; 255; 255] ++ rt.
Definition recI (rt : bytes) (skip : Z) : bytes := [9; 0; 4; 14] ++ rt ++ [skip].
Fixpoint chain_recs (p : Z) (l : list bytes) : list bytes :=
  match l with
  | [] => []
  | [rt] => [recD p rt]
  | rt :: r => recD p rt :: recI rt (2 * len r - 1) :: chain_recs p r
  end.
Lemma chain_model : forall p l n j, 0 <= p < 256 -> n - j = len l -> len l <= 129 -> Forall is4 l -> 
  chain_actions p n j l = map Some (chain_recs p l).
Proof.
  intros p l. induction l as [|rt l IH]; intros n j P E L F; [reflexivity|]. apply Forall_cons_iff in F as [F4 F].
  assert (EL : len (rt :: l) = len l + 1) by (unfold len; cbn [Datatypes.length]; lia). rewrite EL in *. cbn [chain_actions].
  rewrite (IH n (j + 1)) by (try assumption; lia).
  assert (D : actionD_data (mkAD p 0 false 255 255 (DVRaw rt)) = Some (recD p rt)).
  { unfold actionD_data. cbn [ad_op ad_if_undefined ad_target ad_src1 ad_src2 ad_value]. change (Z.lor 0 (128 * Z.b2z false)) with 0.
    unfold mk_bytes, bytesb. cbn [forallb]. replace (byteb p) with true by (symmetry; unfold byteb; apply andb_true_iff; split; [apply Z.leb_le|apply Z.ltb_lt]; lia).
    cbn. rewrite app_nil_r. reflexivity. }
  rewrite D. replace (n - j - 1) with (len l) by lia. destruct l as [|x l]; [reflexivity|].
  set (k := len (x :: l)) in *. assert (1 <= k) by (unfold k, len; cbn [Datatypes.length]; lia).
  replace (0 <? 2 * k - 1) with true by (symmetry; apply Z.ltb_lt; lia). cbn [app map chain_recs]. fold k. f_equal. f_equal.
  unfold action7_data. cbn [a7_varsize a7_value bind a7_static a7_var a7_cond a7_skip].
  replace (len rt) with 4 by (unfold len; rewrite F4; reflexivity).
  unfold mk_bytes, bytesb. cbn [forallb]. replace (byteb (2 * k - 1)) with true by (symmetry; unfold byteb; apply andb_true_iff; split; [apply Z.leb_le|apply Z.ltb_lt]; lia).
  cbn. unfold recI. reflexivity.
Qed.
Lemma chain_len : forall p l, l <> [] -> len (chain_recs p l) = 2 * len l - 1.
Proof.
  intros p l. induction l as [|rt l IH]; intro N; [contradiction|]. destruct l as [|x l]; [reflexivity|].
  change (chain_recs p (rt :: x :: l)) with (recD p rt :: recI rt (2 * len (x :: l) - 1) :: chain_recs p (x :: l)).
  assert (x :: l <> []) as Q by discriminate. specialize (IH Q). unfold len in *. cbn [Datatypes.length] in *. lia.
Qed.
Definition not_label (r : bytes) : Prop := byte_at 0 r <> 16.
Lemma chain_not_label : forall p l, Forall not_label (chain_recs p l).
Proof.
  intros p l. induction l as [|rt l IH]; [apply Forall_nil|]. destruct l as [|x l]; cbn [chain_recs].
  - apply Forall_cons; [unfold not_label; cbn; discriminate|apply Forall_nil].
  - apply Forall_cons; [unfold not_label; cbn; discriminate|]. apply Forall_cons; [unfold not_label; cbn; discriminate|exact IH].
Qed.
Lemma after_label_app : forall n a b, Forall not_label a -> after_label n (a ++ b) = after_label n b.
Proof.
  intros n a b H. induction H as [|r a N H IH]; [reflexivity|]. cbn [app after_label]. unfold is_label, not_label in *.
  rewrite (proj2 (Z.eqb_neq _ _) N). cbn [andb]. exact IH.
Qed.
(** Nothing behind the table is a label that one of the skips would go to. *)
Definition no_capture (m : Z) (tail : list bytes) : Prop := forall n, 0 < n <= m -> after_label n tail = None.
Lemma exec_D : forall g p rt, is4 rt -> g_patches g = [] -> patched g (recD p rt) = recD p rt /\
  skips (fun _ => true) (recD p rt) = None /\ exec g (recD p rt) = mkGame (fun k => if k =? p then rt else g_param g k) [] (g_table g).
Proof.
  intros g p rt F G. destruct rt as [|a [|b [|c [|d [|e rt]]]]]; try discriminate F.
  split; [unfold patched; rewrite G; reflexivity|]. split; [reflexivity|]. unfold exec. cbn [byte_at nth recD app skipn firstn andb].
  rewrite !Z.eqb_refl. reflexivity.
Qed.
Lemma skips_D : forall avail p rt, skips avail (recD p rt) = None.
Proof. reflexivity. Qed.
Lemma skips_I : forall avail rt n, is4 rt -> skips avail (recI rt n) = if avail rt then Some n else None.
Proof. intros avail rt n F. destruct rt as [|a [|b [|c [|d [|e rt]]]]]; try discriminate F. reflexivity. Qed.
Lemma exec_I : forall g rt n, exec g (recI rt n) = mkGame (g_param g) [] (g_table g).
Proof. reflexivity. Qed.
Lemma choice_cons : forall avail rt x l, choice avail (rt :: x :: l) = if avail rt then rt else choice avail (x :: l).
Proof. intros. unfold choice. cbn [find]. destruct (avail rt); reflexivity. Qed.
Lemma choice_one : forall avail rt, choice avail [rt] = rt.
Proof. intros. unfold choice. cbn. destruct (avail rt); reflexivity. Qed.
Lemma play_chain : forall avail p l g tail, l <> [] -> Forall is4 l -> no_capture (2 * len l - 3) tail -> g_patches g = [] ->
  exists f, play avail g (chain_recs p l ++ tail) = play avail (mkGame f [] (g_table g)) tail /\ f p = choice avail l /\
  forall k, k <> p -> f k = g_param g k.
Proof.
  intros avail p l. induction l as [|rt l IH]; intros g tail N F C G; [contradiction|]. apply Forall_cons_iff in F as [F4 F].
  destruct (exec_D g p rt F4 G) as (D1 & _ & D2).
  destruct l as [|x l].
  - cbn [chain_recs app]. rewrite play_cons, D1, skips_D, D2. eexists. split; [reflexivity|]. cbn beta. split; [rewrite Z.eqb_refl, choice_one; reflexivity|].
    intros k K. rewrite (proj2 (Z.eqb_neq _ _) K). reflexivity.
  - change (chain_recs p (rt :: x :: l)) with (recD p rt :: recI rt (2 * len (x :: l) - 1) :: chain_recs p (x :: l)).
    change ((recD p rt :: recI rt (2 * len (x :: l) - 1) :: chain_recs p (x :: l)) ++ tail)
      with (recD p rt :: recI rt (2 * len (x :: l) - 1) :: (chain_recs p (x :: l) ++ tail)).
    assert (EL : len (rt :: x :: l) = len (x :: l) + 1) by (unfold len; cbn [Datatypes.length]; lia). rewrite EL in C.
    assert (K1 : 1 <= len (x :: l)) by (unfold len; cbn [Datatypes.length]; lia).
    assert (NX : x :: l <> []) by discriminate.
    rewrite play_cons, D1, skips_D, D2, play_cons.
    match goal with |- context [patched ?g (recI ?a ?b)] => change (patched g (recI a b)) with (recI a b) end.
    rewrite (skips_I avail rt _ F4), choice_cons. destruct (avail rt) eqn:A.
    + cbn [g_param g_patches g_table].
      replace (jump (2 * len (x :: l) - 1) (chain_recs p (x :: l) ++ tail)) with tail.
      * eexists. split; [reflexivity|]. cbn beta. split; [rewrite Z.eqb_refl; reflexivity|].
        intros k K. rewrite (proj2 (Z.eqb_neq _ _) K). reflexivity.
      * unfold jump. rewrite (after_label_app _ _ _ (chain_not_label p (x :: l))), (C (2 * len (x :: l) - 1)) by lia.
        replace (2 * len (x :: l) - 1 =? 0) with false by (symmetry; apply Z.eqb_neq; lia).
        rewrite <- (chain_len p (x :: l) NX), len_nat. symmetry. exact (skipn_app_len (chain_recs p (x :: l)) tail).
    + rewrite exec_I. cbn [g_param g_table]. destruct (IH (mkGame (fun k => if k =? p then rt else g_param g k) [] (g_table g)) tail NX F) as (f & Q & FP & FK).
      * intros n NN. apply C. lia.
      * reflexivity.
      * cbn [g_param g_table] in Q, FK. exists f. split; [exact Q|]. split; [exact FP|]. intros k K. rewrite (FK k K), (proj2 (Z.eqb_neq _ _) K). reflexivity.
Qed.

(** ** The table *)
Fixpoint table_of (i : Z) (ls : list (list bytes)) : rtable :=
  match ls with [] => [] | l :: ls => (hd [] l, (i, l)) :: table_of (i + 1) ls end.
Lemma bytes_eqb_ok : forall a b, bytes_eqb a b = true <-> a = b.
Proof.
  induction a as [|x a IH]; intros [|y b]; cbn [bytes_eqb]; split; try discriminate; try reflexivity.
  - rewrite andb_true_iff, Z.eqb_eq, IH. intros [-> ->]. reflexivity.
  - intro E. injection E as -> ->. rewrite andb_true_iff, Z.eqb_eq, IH. split; reflexivity.
Qed.
Lemma table_of_keys : forall ls i, map fst (table_of i ls) = map (hd []) ls.
Proof. induction ls as [|l ls IH]; intro i; [reflexivity|]. cbn [table_of map fst]. rewrite IH. reflexivity. Qed.
Lemma table_of_len : forall ls i, len (table_of i ls) = len ls.
Proof. intros. unfold len. rewrite <- (map_length fst), table_of_keys, map_length. reflexivity. Qed.
Fixpoint ids_from (i : Z) (ls : list (list bytes)) : list Z := match ls with [] => [] | _ :: ls => i :: ids_from (i + 1) ls end.
Lemma add_all : forall ls t, Forall (fun l => l <> []) ls -> NoDup (map fst t ++ map (hd []) ls) ->
  add_railtypes t ls = Some (t ++ table_of (len t) ls, ids_from (len t) ls).
Proof.
  induction ls as [|l ls IH]; intros t N D; cbn [add_railtypes table_of ids_from]; [rewrite app_nil_r; reflexivity|].
  apply Forall_cons_iff in N as [NL N]. destruct l as [|rt l]; [contradiction|]. cbn [map hd] in D. cbn [add_railtype bind].
  rewrite (dict_set_fresh bytes_eqb bytes_eqb_ok); [|apply NoDup_remove_2 in D; intro X; apply D, in_or_app; left; exact X].
  rewrite IH; [|exact N|rewrite map_app; cbn [map fst]; rewrite <- app_assoc; exact D]. cbn [bind].
  assert (L : forall x, len (t ++ [x]) = len t + 1) by (intro x; unfold len; rewrite app_length; cbn; lia).
  rewrite L, <- app_assoc. reflexivity.
Qed.
Definition multi (l : list bytes) : bool := negb (len l =? 1).
Fixpoint recs (k : Z) (ls : list (list bytes)) : list bytes :=
  match ls with [] => [] | l :: ls => if multi l then chain_recs (127 - k) l ++ recs (k + 1) ls else recs k ls end.
Fixpoint mods_of (k i : Z) (ls : list (list bytes)) : list patch6 :=
  match ls with
  | [] => []
  | l :: ls => if multi l then (127 - k, 4, 8 + i * 4) :: mods_of (k + 1) (i + 1) ls else mods_of k (i + 1) ls
  end.
Definition list_ok (l : list bytes) : Prop := l <> [] /\ len l <= 129 /\ Forall is4 l.
Lemma table_model : forall ls i mods, Forall list_ok ls -> len mods + len (filter multi ls) <= 128 ->
  table_actions mods (table_of i ls) = (map Some (recs (len mods) ls), mods ++ mods_of (len mods) i ls).
Proof.
  induction ls as [|l ls IH]; intros i mods F C; cbn [table_of table_actions recs mods_of map]; [rewrite app_nil_r; reflexivity|].
  apply Forall_cons_iff in F as [(N & L & F4) F]. cbn [filter] in C. replace (multi l) with (negb (len l =? 1)) in * by reflexivity. destruct (len l =? 1); cbn [negb] in *.
  - apply IH; assumption.
  - assert (K : len (mods ++ [(127 - len mods, 4, 8 + i * 4)]) = len mods + 1) by (unfold len; rewrite app_length; cbn; lia).
    assert (C' : len (l :: filter multi ls) = len (filter multi ls) + 1) by (unfold len; cbn [Datatypes.length]; lia).
    rewrite C' in C. pose proof (len_nonneg mods). pose proof (len_nonneg (filter multi ls)).
    rewrite IH by (try assumption; rewrite K; lia). rewrite K, map_app.
    rewrite chain_model by (try assumption; lia). rewrite <- app_assoc. reflexivity.
Qed.
Lemma recs_not_label : forall ls k, Forall not_label (recs k ls).
Proof.
  induction ls as [|l ls IH]; intro k; cbn [recs]; [apply Forall_nil|]. destruct (multi l); [|apply IH].
  apply Forall_app. split; [apply chain_not_label|apply IH].
Qed.
Fixpoint agrees (avail : bytes -> bool) (f : Z -> bytes) (k : Z) (ls : list (list bytes)) : Prop :=
  match ls with
  | [] => True
  | l :: ls => if multi l then f (127 - k) = choice avail l /\ agrees avail f (k + 1) ls else agrees avail f k ls
  end.
Definition limit (ls : list (list bytes)) : Z := fold_right (fun l m => Z.max (2 * len l - 3) m) 0 ls.
Lemma no_capture_app : forall m a b, Forall not_label a -> no_capture m b -> no_capture m (a ++ b).
Proof. intros m a b A B n N. rewrite after_label_app by assumption. exact (B n N). Qed.
Lemma no_capture_le : forall m n l, m <= n -> no_capture n l -> no_capture m l.
Proof. intros m n l L H k K. apply H. lia. Qed.
Lemma agrees_ext : forall avail f h ls k, (forall j, j <= 127 - k -> f j = h j) -> agrees avail f k ls -> agrees avail h k ls.
Proof.
  intros avail f h ls. induction ls as [|l ls IH]; intros k E A; cbn [agrees] in *; [exact I|]. destruct (multi l).
  - destruct A as [A1 A2]. split; [rewrite <- E by lia; exact A1|]. apply IH; [|exact A2]. intros j J. apply E. lia.
  - apply IH; assumption.
Qed.
Lemma play_recs : forall avail ls k g tail, Forall list_ok ls -> no_capture (limit ls) tail -> g_patches g = [] ->
  exists f, play avail g (recs k ls ++ tail) = play avail (mkGame f [] (g_table g)) tail /\ agrees avail f k ls /\
  forall j, 127 - k < j -> f j = g_param g j.
Proof.
  intros avail ls. induction ls as [|l ls IH]; intros k g tail F C G.
  - exists (g_param g). split; [destruct g as [f p t]; cbn [g_patches] in G; subst p; reflexivity|]. split; [exact I|reflexivity].
  - apply Forall_cons_iff in F as [(N & L & F4) F]. cbn [limit fold_right] in C. fold (limit ls) in C.
    assert (C1 : no_capture (2 * len l - 3) tail) by (apply (no_capture_le _ _ _ (Z.le_max_l _ _) C)).
    assert (C2 : no_capture (limit ls) tail) by (apply (no_capture_le _ _ _ (Z.le_max_r _ _) C)).
    cbn [recs agrees]. destruct (multi l); [|apply IH; assumption]. rewrite <- app_assoc.
    destruct (play_chain avail (127 - k) l g (recs (k + 1) ls ++ tail) N F4) as (f1 & P1 & A1 & K1); [apply no_capture_app; [apply recs_not_label|exact C1]|exact G|].
    destruct (IH (k + 1) (mkGame f1 [] (g_table g)) tail F C2 eq_refl) as (f2 & P2 & A2 & K2). cbn [g_param g_table] in P2, K2.
    exists f2. split; [rewrite P1; exact P2|]. split; [split; [rewrite K2 by lia; exact A1|exact A2]|].
    intros j J. rewrite K2, K1 by lia. reflexivity.
Qed.

(** ** The changes *)
Definition spec_patch (p : patch6) : Z * nat * nat := let '(num, size, ofs) := p in (num, Z.to_nat size, Z.to_nat ofs).
Definition patch_ok (p : patch6) : Prop := let '(num, size, ofs) := p in 0 <= num < 255 /\ 0 <= size < 256 /\ 0 <= ofs < 65536.
Lemma read_patches_ok : forall ps, Forall patch_ok ps -> exists b, concat_opt (map patch6_data ps) = Some b /\
  forall r, read_patches (b ++ 255 :: r) = map spec_patch ps.
Proof.
  intros ps H. induction H as [|[[num size] ofs] ps (P1 & P2 & P3) H (b & E & R)].
  - exists []. split; [reflexivity|]. intro r. cbn [app read_patches map]. destruct r as [|x [|y r]]; reflexivity.
  - assert (D : patch6_data (num, size, ofs) = Some [num; size; 255; ofs mod 256; ofs / 256]).
    { unfold patch6_data. cbn [concat_opt]. rewrite !pack_B_ok, pack_H_ok by lia. reflexivity. }
    exists ([num; size; 255; ofs mod 256; ofs / 256] ++ b). split; [cbn [map concat_opt]; rewrite D; cbn [bind]; rewrite E; reflexivity|].
    intro r. cbn [app read_patches map spec_patch]. rewrite (proj2 (Z.eqb_neq num 255)) by lia. change (255 =? 255) with true. cbn iota.
    rewrite R. f_equal. f_equal. f_equal. lia.
Qed.
Lemma mods_ok : forall ls k i, 0 <= k -> 0 <= i -> k + len (filter multi ls) <= 128 -> i + len ls <= 255 -> Forall patch_ok (mods_of k i ls).
Proof.
  induction ls as [|l ls IH]; intros k i K I C L; cbn [mods_of]; [apply Forall_nil|].
  assert (L' : len (l :: ls) = len ls + 1) by (unfold len; cbn [Datatypes.length]; lia). cbn [filter] in C. pose proof (len_nonneg ls).
  destruct (multi l).
  - assert (C' : len (l :: filter multi ls) = len (filter multi ls) + 1) by (unfold len; cbn [Datatypes.length]; lia).
    pose proof (len_nonneg (filter multi ls)). apply Forall_cons; [unfold patch_ok; lia|]. apply IH; lia.
  - apply IH; lia.
Qed.
Lemma patch_at : forall f num (a m b : bytes) n, length a = n -> length m = 4%nat -> length (f num) = 4%nat ->
  patch_with f (a ++ m ++ b) (num, 4%nat, n) = a ++ f num ++ b.
Proof.
  intros f num a m b n A M F. unfold patch_with. subst n.
  replace (firstn (length a) (a ++ m ++ b)) with a by (symmetry; exact (firstn_app_len a (m ++ b))).
  replace (firstn 4 (f num)) with (f num) by (rewrite <- F; symmetry; apply firstn_all).
  replace (skipn (length a + 4) (a ++ m ++ b)) with b; [reflexivity|].
  rewrite app_assoc. rewrite <- M, <- app_length. symmetry. exact (skipn_app_len (a ++ m) b).
Qed.
Lemma choice_4 : forall avail l, l <> [] -> Forall is4 l -> is4 (choice avail l).
Proof.
  intros avail l N F. unfold choice. destruct (find avail l) as [x|] eqn:E.
  - apply find_some in E as [E _]. exact (proj1 (Forall_forall _ _) F x E).
  - clear E. induction F as [|x l X F IH]; [contradiction|]. destruct l as [|y l]; [exact X|]. apply IH. discriminate.
Qed.
Lemma hd_4 : forall l, l <> [] -> Forall is4 l -> is4 (hd [] l).
Proof. intros l N F. destruct F; [contradiction|assumption]. Qed.
Lemma patches_all : forall avail f ls k i (h : bytes) (dn : bytes), Forall list_ok ls -> agrees avail f k ls ->
  0 <= i -> length h = 8%nat -> Z.of_nat (length dn) = 4 * i ->
  fold_left (patch_with f) (map spec_patch (mods_of k i ls)) (h ++ dn ++ flat_map (hd []) ls) = h ++ dn ++ flat_map (choice avail) ls.
Proof.
  intros avail f ls. induction ls as [|l ls IH]; intros k i h dn F A I H D; [reflexivity|].
  apply Forall_cons_iff in F as [(N & L & F4) F]. cbn [mods_of flat_map agrees] in *. destruct (multi l) eqn:M.
  - destruct A as [A1 A2]. cbn [map fold_left spec_patch]. pose proof (choice_4 avail l N F4) as C4. pose proof (hd_4 l N F4) as H4.
    assert (P : patch_with f (h ++ dn ++ hd [] l ++ flat_map (hd []) ls) (127 - k, Z.to_nat 4, Z.to_nat (8 + i * 4)) =
      h ++ (dn ++ choice avail l) ++ flat_map (hd []) ls).
    { rewrite app_assoc. replace (Z.to_nat (8 + i * 4)) with (length (h ++ dn)) by (rewrite app_length; lia).
      etransitivity; [refine (patch_at f (127 - k) (h ++ dn) (hd [] l) (flat_map (hd []) ls) _ eq_refl H4 _); rewrite A1; exact C4|].
      rewrite A1, <- !app_assoc. reflexivity. }
    etransitivity; [exact (f_equal (fold_left (patch_with f) (map spec_patch (mods_of (k + 1) (i + 1) ls))) P)|].
    rewrite (IH (k + 1) (i + 1) h (dn ++ choice avail l) F A2); [rewrite <- !app_assoc; reflexivity|lia|exact H|].
    rewrite app_length. unfold is4 in C4. lia.
  - assert (E : exists x, l = [x]).
    { unfold multi in M. apply negb_false_iff, Z.eqb_eq in M. unfold len in M. destruct l as [|x [|y l]]; cbn [Datatypes.length] in M; try lia. exists x. reflexivity. }
    destruct E as [x ->]. cbn [hd]. rewrite choice_one. apply Forall_inv in F4. unfold is4 in F4.
    pose proof (IH k (i + 1) h (dn ++ x) F A) as Q. rewrite <- !app_assoc in Q. apply Q; [lia|exact H|]. rewrite app_length. lia.
Qed.
Lemma labels_concat : forall ls : list bytes, Forall is4 ls -> labels (length ls) (concat ls) = ls.
Proof.
  intros ls H. induction H as [|x ls X H IH]; [reflexivity|]. cbn [length labels List.concat].
  unfold is4 in X. rewrite <- X. rewrite (firstn_app_len x (concat ls)), (skipn_app_len x (concat ls)). rewrite IH. reflexivity.
Qed.

(** ** All together *)
Lemma all_some_map : forall {A} (l : list A), all_some (map Some l) = Some l.
Proof. induction l as [|x l IH]; [reflexivity|]. cbn [map all_some bind]. rewrite IH. reflexivity. Qed.
Lemma keys_code : forall ks, Forall is4 ks -> values_code FL (map VBytes ks) (map VBytes ks) (concat ks).
Proof.
  intros ks H. induction H as [|x ks X H IH]; [apply vc_nil|]. cbn [map List.concat]. apply vc_cons; [apply c_L; exact X|exact IH].
Qed.
Lemma table_record : forall ks, Forall is4 ks -> len ks <= 255 ->
  define_data (mkDef 8 0 (len ks) [("railtype_table", map VBytes ks)]) = Some ([0; 8; 1; len ks; 255; 0; 0; 18] ++ concat ks).
Proof.
  intros ks H L.
  assert (C : define_codes (mkDef 8 0 (len ks) [("railtype_table", map VBytes ks)]) (mkDef 8 0 (len ks) [("railtype_table", map VBytes ks)])
    ([0; 8; len [("railtype_table", map VBytes ks)]; len ks; 255] ++ word 0 ++ (18 :: concat ks ++ []))).
  { apply dc; [lia|pose proof (len_nonneg ks); lia|reflexivity|cbn; apply NoDup_cons; [intros []|apply NoDup_nil]| |].
    - eexists. do 7 right. left. reflexivity.
    - apply pc_cons with FL; [apply by_name_has; reflexivity|unfold len; rewrite map_length; lia| |apply pc_nil].
      rewrite len_nat. replace (firstn (length ks) (map VBytes ks)) with (map VBytes ks); [exact (keys_code ks H)|].
      rewrite <- (map_length VBytes ks). symmetry. apply firstn_all. }
  destruct (define_ok _ _ _ C) as (_ & E & _). rewrite app_nil_r in E. exact E.
Qed.
Lemma mods_nil : forall ls k i, mods_of k i ls = [] -> filter multi ls = [].
Proof.
  induction ls as [|l ls IH]; intros k i H; [reflexivity|]. cbn [mods_of filter] in *. destruct (multi l); [discriminate|exact (IH _ _ H)].
Qed.
Lemma exec_table : forall g b n, byte_at 0 b = 0 -> exec g ([0; 8; 1; n; 255; 0; 0; 18] ++ b) = mkGame (g_param g) [] (labels (Z.to_nat n) b).
Proof. reflexivity. Qed.
Lemma limit_capture : forall ls tail, (forall r l, In r tail -> In l ls -> byte_at 0 r = 16 -> 0 < byte_at 1 r <= 2 * len l - 3 -> False) ->
  no_capture (limit ls) tail.
Proof.
  intros ls tail H n N. induction tail as [|r tail IH]; [reflexivity|]. cbn [after_label].
  destruct (is_label n r) eqn:E; [|apply IH; intros r' l R L; apply (H r' l); [right; exact R|exact L]]. exfalso.
  unfold is_label in E. apply andb_true_iff in E as [E1 E2]. apply Z.eqb_eq in E1, E2. subst n.
  assert (X : exists l, In l ls /\ byte_at 1 r <= 2 * len l - 3).
  { clear - N. induction ls as [|l ls IH]; cbn [limit fold_right] in N; [lia|]. fold (limit ls) in N.
    destruct (Z.le_gt_cases (byte_at 1 r) (2 * len l - 3)); [exists l; split; [left; reflexivity|assumption]|].
    destruct IH as (l' & I & Q); [lia|]. exists l'. split; [right; exact I|exact Q]. }
  destruct X as (l & I & Q). apply (H r l (or_introl eq_refl) I E1). lia.
Qed.
Lemma railtypes_ok : forall avail ls g tail, Forall list_ok ls -> NoDup (map (hd []) ls) -> len ls <= 255 -> len (filter multi ls) <= 128 ->
  g_patches g = [] -> no_capture (limit ls) tail ->
  exists rs f, railtype_actions (table_of 0 ls) = Some rs /\ play avail g (rs ++ tail) = play avail (mkGame f [] (map (choice avail) ls)) tail.
Proof.
  intros avail ls g tail F ND L M G C. unfold railtype_actions. rewrite (table_model ls 0 [] F) by (change (@len patch6 []) with 0; lia).
  change (@len patch6 []) with 0. cbn [app]. rewrite table_of_len.
  assert (KS : map (fun e : bytes * (Z * list bytes) => VBytes (fst e)) (table_of 0 ls) = map VBytes (map (hd []) ls)).
  { rewrite <- (table_of_keys ls 0), map_map. reflexivity. }
  rewrite KS.
  assert (K4 : Forall is4 (map (hd []) ls)).
  { apply Forall_forall. intros x X. apply in_map_iff in X as (l & <- & I). destruct (proj1 (Forall_forall _ _) F l I) as (N & _ & F4). exact (hd_4 l N F4). }
  assert (C4 : Forall is4 (map (choice avail) ls)).
  { apply Forall_forall. intros x X. apply in_map_iff in X as (l & <- & I). destruct (proj1 (Forall_forall _ _) F l I) as (N & _ & F4). exact (choice_4 avail l N F4). }
  assert (LK : len (map (hd []) ls) = len ls) by (unfold len; rewrite map_length; reflexivity).
  assert (TR : define_data (mkDef 8 0 (len ls) [("railtype_table", map VBytes (map (hd []) ls))]) =
    Some ([0; 8; 1; len ls; 255; 0; 0; 18] ++ flat_map (hd []) ls)).
  { rewrite flat_map_concat_map, <- LK. apply table_record; [exact K4|]. unfold len. rewrite map_length. exact L. }
  rewrite TR. clear TR.
  set (last := [0; 8; 1; len ls; 255; 0; 0; 18] ++ flat_map (hd []) ls).
  assert (FIN : forall f, agrees avail f 0 ls ->
    play avail (mkGame f (map spec_patch (mods_of 0 0 ls)) (g_table g)) (last :: tail) = play avail (mkGame f [] (map (choice avail) ls)) tail).
  { intros f A. rewrite play_cons. unfold patched. cbn [g_param g_patches].
    pose proof (patches_all avail f ls 0 0 [0; 8; 1; len ls; 255; 0; 0; 18] [] F A (Z.le_refl 0) eq_refl eq_refl) as P. cbn [app] in P.
    replace (fold_left (patch_with f) (map spec_patch (mods_of 0 0 ls)) last) with ([0; 8; 1; len ls; 255; 0; 0; 18] ++ flat_map (choice avail) ls)
      by (symmetry; exact P).
    match goal with |- match ?s with _ => _ end = _ => change s with (@None Z) end. cbn iota.
    unfold exec. cbn [byte_at nth app skipn g_param]. rewrite !Z.eqb_refl. cbn [andb].
    rewrite len_nat. rewrite flat_map_concat_map.
    pose proof (labels_concat _ C4) as LC. rewrite map_length in LC.
    exact (f_equal (fun x => play avail (mkGame f [] x) tail) LC). }
  destruct (mods_of 0 0 ls) as [|m ms] eqn:MO.
  - exists (recs 0 ls ++ [last]).
    destruct (play_recs avail ls 0 g (last :: tail) F) as (f & P & A & _).
    { intros n N. cbn [after_label]. change (is_label n last) with false. cbn iota. exact (C n N). }
    { exact G. }
    exists f. cbn [app]. split; [etransitivity; [|apply all_some_map]; rewrite map_app; reflexivity|].
    rewrite <- app_assoc. etransitivity; [exact P|]. exact (FIN f A).
  - rewrite <- MO in *.
    assert (PO : Forall patch_ok (mods_of 0 0 ls)) by (apply mods_ok; lia).
    destruct (read_patches_ok _ PO) as (b & B & R).
    assert (A6 : action6_data (mods_of 0 0 ls) = Some (6 :: b ++ [255])).
    { unfold action6_data. cbn [app concat_opt]. change (pack_B 6) with (Some [6]). cbn [bind].
      assert (Q : concat_opt (map patch6_data (mods_of 0 0 ls) ++ [pack_B 255]) = Some (b ++ [255])).
      { clear - B. revert b B. induction (map patch6_data (mods_of 0 0 ls)) as [|x l IH]; intros b B; cbn [app concat_opt] in *.
        - injection B as <-. reflexivity.
        - destruct x as [a|]; [|discriminate]. cbn [bind] in *. destruct (concat_opt l) as [c|]; [|discriminate]. cbn [bind] in *. injection B as <-.
          rewrite (IH c eq_refl). cbn [bind]. rewrite <- app_assoc. reflexivity. }
      rewrite Q. reflexivity. }
    exists (recs 0 ls ++ [6 :: b ++ [255]; last]).
    destruct (play_recs avail ls 0 g ((6 :: b ++ [255]) :: last :: tail) F) as (f & P & A & _).
    { intros n N. cbn [after_label]. change (is_label n last) with false. change (is_label n (6 :: b ++ [255])) with false. cbn iota. exact (C n N). }
    { exact G. }
    exists f. split.
    + rewrite MO. rewrite <- MO, A6. etransitivity; [|apply all_some_map]. rewrite map_app. reflexivity.
    + rewrite <- app_assoc. cbn [app]. etransitivity; [exact P|]. rewrite play_cons.
      match goal with |- match ?s with _ => _ end = _ => change s with (@None Z) end. cbn iota.
      match goal with |- play _ (exec ?g (patched ?g ?r)) _ = _ => change (patched g r) with r end.
      etransitivity; [|exact (FIN f A)]. f_equal. unfold exec. cbn [byte_at nth app skipn g_param g_table]. change (6 =? 0) with false. cbn [andb].
      rewrite Z.eqb_refl. rewrite (R []). reflexivity.
Qed.
