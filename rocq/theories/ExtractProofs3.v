(** Proofs about ExtractModel: ids, success. *)
From Coq Require Import ZArith List Bool String Lia Permutation.
From Verif Require SpecPython PyReadProofs.
From Verif Require Import Base BaseFacts RecordsModel RecordsProofs DecodeModel DecodeProofs SheetProofs AnnounceModel AnnounceProofs SpecDecode SpecAnnounce CommonModel CommonProofs ExtractModel SpecExtract PyValue PropsDecode PropsAnnounce ExtractProofs ExtractProofs2.
Import ListNotations.
Open Scope string_scope.
Open Scope list_scope.
Open Scope Z_scope.

(** ** Reached contexts *)
(** Characters of identifiers. *)
Definition simple (g : bytes) : Prop := forallb SpecPython.identb g = true /\ match g with c :: _ => SpecPython.letterb c = true | [] => True end.
Definition named_group (o : option bytes) : Prop := match o with Some g => (exists name k, numbered name k g) /\ simple g | None => True end.
Lemma simple_features f : simple (feature_name f).
Proof.
  unfold feature_name. assert (F : Forall simple FEATURE_NAME) by (repeat (apply Forall_cons; [split; reflexivity|]); apply Forall_nil).
  destruct (nth_in_or_default (Z.to_nat f) FEATURE_NAME []) as [I | ->]; [rewrite Forall_forall in F; exact (F _ I)|split; [reflexivity|exact I]].
Qed.
Lemma simple_name g k : 0 <= k -> simple g -> simple (group_name g k).
Proof.
  intros K [A B]. unfold group_name, simple. rewrite forallb_app, A. cbn [forallb andb]. split.
  - unfold str_nat. pose proof (PyReadProofs.dec_digits_digits (S (Z.to_nat k)) k K) as D. change (SpecPython.identb 95) with true. cbn [andb]. apply forallb_forall. intros c I. rewrite forallb_forall in D. specialize (D c I). unfold SpecPython.identb. rewrite D. apply orb_true_r.
  - destruct g as [|c g]; [reflexivity|exact B].
Qed.
Definition named (c : ctx) : Prop := named_group (x_group c) /\ Forall (fun e => named_group (snd (snd e))) (x_sprites c) /\ Forall (fun e => 0 <= snd e) (x_groups c).
Lemma dset_forall {K V} (eqb : K -> K -> bool) (P : V -> Prop) (l : list (K * V)) k v : P v -> Forall (fun e => P (snd e)) l -> Forall (fun e => P (snd e)) (dict_set eqb l k v).
Proof.
  intros Pv F. induction F as [|[a b] l Pa F IH]; cbn [dict_set]; [constructor; [exact Pv|constructor]|]. destruct (eqb k a); constructor; assumption.
Qed.
Lemma dget_forall {K V} (eqb : K -> K -> bool) (P : V -> Prop) (l : list (K * V)) k v : Forall (fun e => P (snd e)) l -> dict_get eqb l k = Some v -> P v.
Proof. intros F. induction F as [|[a b] l Pa F IH]; cbn [dict_get]; [discriminate|]. destruct (eqb k a); [intros E; apply some_inj in E; subst; exact Pa|exact IH]. Qed.
Lemma named_reset c : named c -> named (reset c).
Proof. intros (A & B & C). repeat split; assumption. Qed.
Lemma named_consume i c : named c -> named (consume i c).
Proof.
  intros (A & B & C). assert (S : forall i, Forall (fun e => named_group (snd (snd e))) (dict_set Z.eqb (x_sprites c) i (x_type c, x_group c))).
  { intros j. apply (dset_forall Z.eqb (fun v => named_group (snd v))); [exact A|exact B]. }
  unfold consume. destruct i as [i|]; cbn; destruct (x_type c); cbn; try destruct (x_amount c - 1 <=? 0); (split; [exact A || exact I|split; [apply S || exact B|exact C]]).
Qed.
Lemma named_count k n c : named c -> named (count k n c).
Proof. destruct (count_core k n c) as (_ & A & B & _ & D). unfold named. rewrite A, B, D. auto. Qed.
Lemma named_graphics n g c : simple g -> named c -> named (set_graphics n g c).
Proof.
  intros Sg (A & B & C). unfold set_graphics. set (k := match dict_get bytes_eq (x_groups c) g with Some n => n | None => 0 end).
  assert (K : 0 <= k). { unfold k. destruct (dict_get bytes_eq (x_groups c) g) eqn:E; [|lia]. exact (dget_forall bytes_eq (fun v => 0 <= v) _ _ _ C E). }
  split; [|split; [exact B|]]; cbn [x_group x_groups].
  - split; [exists g, k; apply group_numbered; exact K|apply simple_name; assumption].
  - apply (dset_forall bytes_eq (fun v => 0 <= v)); [lia|exact C].
Qed.
Lemma named_sound n c : named c -> named (set_sound n c).
Proof. intros (A & B & C). split; [exact I|split; assumption]. Qed.
Lemma named_in t d c : named c -> named (decode_in t d c).
Proof.
  intros N. unfold decode_in. destruct (t =? 1); [destruct (decode_action1 d); [apply named_graphics; [apply simple_features|]|]; exact N|]. destruct (t =? 5); [destruct (decode_action5 d); [apply named_graphics; [split; reflexivity|]|]; exact N|].
  destruct (t =? 10); [destruct (decode_actionA d); [apply named_graphics; [split; reflexivity|]|]; exact N|]. destruct (t =? 17); [destruct (decode_action11 d); [apply named_sound|]; exact N|]. exact N.
Qed.
Lemma named_record r c c' : named c -> read_record r c = Some c' -> named c'.
Proof.
  intros N. unfold read_record. destruct r as [t d]. destruct (t =? 255).
  - destruct d as [|a [|b d]]; try discriminate; intros H; apply some_inj in H; subst c'; [exact N|]. unfold decode_pseudo_sprite.
    assert (M : named (count_action a (len (a :: b :: d) + 4 * 2 + 1) c)) by (apply named_count, N). destruct (x_type _); try (apply named_in, M).
    destruct (a =? 254); [destruct (decode_actionFE _); [apply named_consume|]; exact M|]. destruct (a =? 255); [exact M|]. apply named_in, named_reset, M.
  - destruct (t =? 253).
    + cbv zeta. destruct (len d =? 4); [|discriminate]. destruct (rd_I d) as [[i ?]|]; [|discriminate]. cbn [bind]. intros H. apply some_inj in H. subst c'. apply named_consume, named_count, N.
    + destruct d as [|a d]; [discriminate|]. intros H. apply some_inj in H. subst c'. apply named_consume, named_count, N.
Qed.
Lemma named_records : forall l c c', named c -> read_records l c = Some c' -> named c'.
Proof.
  induction l as [|r l IH]; intros c c' N H; cbn [read_records] in H; [apply some_inj in H; subst; exact N|]. apply bind_some in H as (c1 & R & H). apply (IH c1); [exact (named_record _ _ _ N R)|exact H].
Qed.
Lemma named_reals : forall l c, named c -> named (count_reals l c).
Proof. induction l as [|[i d] l IH]; intros c N; cbn [count_reals]; [exact N|]. apply IH, named_count, N. Qed.
Lemma named_new : named new_ctx. Proof. repeat split; constructor. Qed.
(** What reading a file leaves. *)
Definition reached (c : ctx) : Prop := exists records reals c0, read_records records new_ctx = Some c0 /\ c = count_reals reals c0.
Lemma reached_group c i : reached c -> is_group (group_of c i).
Proof.
  intros (l & r & c0 & R & ->). pose proof (named_reals r c0 (named_records _ _ _ named_new R)) as (_ & S & _). unfold group_of, get_sprite_data.
  destruct (dict_get Z.eqb _ i) as [[t g]|] eqn:E; [|left; reflexivity]. cbn [snd]. destruct g as [[|b g]|]; try (left; reflexivity).
  right. exact (proj1 (dget_forall Z.eqb (fun v => named_group (snd v)) _ _ _ S E)).
Qed.
Lemma reached_simple c i : reached c -> simple (group_of c i) /\ group_of c i <> [].
Proof.
  intros (l & r & c0 & R & ->). pose proof (named_reals r c0 (named_records _ _ _ named_new R)) as (_ & S & _). unfold group_of, get_sprite_data.
  assert (M : simple MISC /\ MISC <> []) by (split; [split; reflexivity|discriminate]).
  destruct (dict_get Z.eqb _ i) as [[t g]|] eqn:E; [|exact M]. cbn [snd]. destruct g as [[|b g]|]; try exact M.
  split; [exact (proj2 (dget_forall Z.eqb (fun v => named_group (snd v)) _ _ _ S E))|discriminate].
Qed.
Lemma good_reached l : Forall is_group l -> good_groups l.
Proof.
  intros F g g' f I I' A B. rewrite Forall_forall in F. destruct (C74_files g g' (F g I) (F g' I')) as (X & Y & Z & _). destruct (C74_files g' g (F g' I') (F g I)) as (_ & _ & Z' & _).
  unfold file_names in A, B. cbn [In] in A, B. destruct A as [<-|[<-|[]]], B as [B|[B|[]]]; apply app_inv_head in B.
  - symmetry. apply X in B || (symmetry in B; apply X in B). congruence.
  - exfalso. apply Z. symmetry. exact B.
  - exfalso. apply Z'. exact B.
  - symmetry in B. apply Y in B. exact B.
Qed.

(** ** Which sprites *)
Lemma filter_flat {K V W} (eqb : K -> K -> bool) (Q : forall a b, eqb a b = true <-> a = b) (h : list V -> list W) (key : W -> K) : forall d, NoDup (map fst d) ->
  (forall k l, In (k, l) d -> Forall (fun w => key w = k) (h l)) -> forall k,
  filter (fun w => eqb k (key w)) (flat_map (fun e => h (snd e)) d) = match dict_get eqb d k with Some l => h l | None => [] end.
Proof.
  induction d as [|[a b] d IH]; intros N F k; [reflexivity|]. cbn [flat_map dict_get snd]. inversion N as [|? ? N1 N2]; subst. rewrite filter_app. rewrite IH; [|exact N2|intros; apply F; now right].
  pose proof (F a b (or_introl eq_refl)) as Fa. destruct (eqb k a) eqn:E.
  - apply Q in E. subst a. assert (X : dict_get eqb d k = None).
    { destruct (dict_get eqb d k) as [m|] eqn:G; [|reflexivity]. exfalso. apply N1. clear - G Q. induction d as [|[c e] d IH]; cbn [dict_get] in G; [discriminate|]. destruct (eqb k c) eqn:T; [apply Q in T; subst; now left|right; apply IH, G]. }
    rewrite X, app_nil_r. clear - Fa Q. induction Fa as [|w l Ew F IH]; [reflexivity|]. cbn [filter]. assert (eqb k (key w) = true) as -> by (apply Q; symmetry; exact Ew). f_equal. exact IH.
  - assert (X : filter (fun w => eqb k (key w)) (h b) = []); [|rewrite X; reflexivity]. clear - Fa E. induction Fa as [|w l Ew F IH]; [reflexivity|]. cbn [filter]. rewrite Ew, E. exact IH.
Qed.
Lemma graphics_filter i l : graphics (filter (fun r => i =? real_id r) l) = graphics_of i l.
Proof.
  induction l as [|[s|j] l IH]; [reflexivity| |]; cbn [filter real_id graphics_of flat_map].
  - rewrite (Z.eqb_sym (f_id s) i). destruct (i =? f_id s); cbn [graphics flat_map app]; [f_equal|]; exact IH.
  - destruct (i =? j); exact IH.
Qed.
Lemma in_order_ids i l : filter (fun s => i =? f_id s) (in_order (real_sprites l)) = graphics_of i l.
Proof.
  unfold in_order. rewrite (filter_flat Z.eqb zeqb_ok graphics f_id).
  - pose proof (got_fold Z.eqb zeqb_ok real_id l [] i) as G. fold (real_sprites l) in G. unfold got in G. cbn [dict_get app] in G. rewrite <- graphics_filter, <- G. destruct (dict_get Z.eqb (real_sprites l) i); reflexivity.
  - apply (fold_nodup Z.eqb zeqb_ok). constructor.
  - intros k m I. apply (fold_member Z.eqb zeqb_ok) in I. subst m. rewrite graphics_filter. apply Forall_forall. intros s I. unfold graphics_of in I. apply in_flat_map in I as (r & _ & I). destruct r as [s'|]; [|destruct I].
    destruct (Z.eqb_spec (f_id s') k); [|destruct I]. destruct I as [<-|[]]. assumption.
Qed.
Lemma filter_comm {A} (f g : A -> bool) l : filter f (filter g l) = filter g (filter f l).
Proof. induction l as [|a l IH]; [reflexivity|]. cbn [filter]. destruct (f a) eqn:F, (g a) eqn:G; cbn [filter]; rewrite ?F, ?G, IH; reflexivity. Qed.
Lemma filter_and {A} (f g : A -> bool) l : (forall a, f a = true -> g a = true) -> filter f (filter g l) = filter f l.
Proof. intros H. induction l as [|a l IH]; [reflexivity|]. cbn [filter]. destruct (g a) eqn:G; cbn [filter]; [rewrite IH; reflexivity|]. destruct (f a) eqn:F; [rewrite (H _ F) in G; discriminate|exact IH]. Qed.
Lemma by_group_nodup c l : NoDup (map fst (by_group c l)). Proof. apply (fold_nodup bytes_eq beq_ok). constructor. Qed.
Lemma by_group_member c l g m : In (g, m) (by_group c l) -> m = filter (fun s => bytes_eq g (group_of c (f_id s))) l.
Proof. apply (fold_member bytes_eq beq_ok (fun s => group_of c (f_id s))). Qed.
Lemma kept_ids c l i : filter (fun s => i =? f_id s) (flat_map (fun gm => filter kept (snd gm)) (by_group c (in_order (real_sprites l)))) = filter kept (graphics_of i l).
Proof.
  set (gs := by_group c _). rewrite <- (filter_and (fun s => i =? f_id s) (fun s => bytes_eq (group_of c i) (group_of c (f_id s)))) by (intros s E; apply Z.eqb_eq in E; subst; apply beq_ok; reflexivity).
  rewrite (filter_flat bytes_eq beq_ok (filter kept) (fun s => group_of c (f_id s)) gs (by_group_nodup _ _)).
  - assert (G : (match dict_get bytes_eq gs (group_of c i) with Some l => l | None => [] end) = filter (fun s => bytes_eq (group_of c i) (group_of c (f_id s))) (in_order (real_sprites l)))
      by exact (got_fold bytes_eq beq_ok (fun s => group_of c (f_id s)) (in_order (real_sprites l)) [] (group_of c i)).
    transitivity (filter (fun s => i =? f_id s) (filter kept (match dict_get bytes_eq gs (group_of c i) with Some l => l | None => [] end))); [destruct (dict_get bytes_eq gs (group_of c i)); reflexivity|].
    rewrite G, filter_comm, (filter_and (fun s => i =? f_id s)) by (intros s E; apply Z.eqb_eq in E; subst; apply beq_ok; reflexivity). rewrite in_order_ids. reflexivity.
  - intros g m I. apply by_group_member in I. subst m. apply Forall_forall. intros s I. apply filter_In in I as [I _]. apply filter_In in I as [_ I]. apply beq_ok in I. symmetry. exact I.
Qed.
Lemma statements_get table i : statements table i = match dict_get Z.eqb table i with Some l => l | None => [] end.
Proof. unfold statements. induction table as [|[k l] t IH]; [reflexivity|]. cbn [find dict_get fst]. rewrite (Z.eqb_sym k i). destruct (i =? k); [reflexivity|exact IH]. Qed.
Lemma filter_map' {A B} (f : A -> B) (P : B -> bool) l : map f (filter (fun a => P (f a)) l) = filter P (map f l).
Proof. induction l as [|a l IH]; [reflexivity|]. cbn [filter map]. destruct (P (f a)); cbn [map]; rewrite IH; reflexivity. Qed.
Lemma extract_statements h1 h2 container c l fs table : extract h1 h2 container c l = Some (fs, table) -> exists es, extract_groups h1 h2 container (by_group c (in_order (real_sprites l))) (mk_paint [] [] [] (fun _ _ => 0) (fun _ _ => [])) = Some (fs, es) /\
  forall i, statements table i = filter (fun e => i =? f_id (e_sprite e)) es.
Proof.
  unfold extract. intros H. apply bind_some in H as ([fs' es] & E & H). apply some_inj in H. apply pair_inj in H as [<- <-]. exists es. split; [exact E|]. intros i. rewrite statements_get.
  exact (got_fold Z.eqb zeqb_ok entry_id es [] i).
Qed.
Lemma in_order_in s l : In s (in_order (real_sprites l)) -> In (RG s) l.
Proof.
  intros I. assert (J : In s (filter (fun s' => f_id s =? f_id s') (in_order (real_sprites l)))) by (apply filter_In; split; [exact I|apply Z.eqb_refl]). rewrite in_order_ids in J.
  unfold graphics_of in J. apply in_flat_map in J as (r & R & J). destruct r as [s'|]; [|destruct J]. destruct (f_id s' =? f_id s); [|destruct J]. destruct J as [<-|[]]. exact R.
Qed.
Lemma in_order_all s l : In (RG s) l -> In s (in_order (real_sprites l)).
Proof.
  intros I. assert (J : In s (graphics_of (f_id s) l)) by (unfold graphics_of; apply in_flat_map; exists (RG s); split; [exact I|]; rewrite Z.eqb_refl; now left). rewrite <- in_order_ids in J. apply filter_In in J. tauto.
Qed.

(** ** Success *)
Definition enc_of (h1 : bytes -> Z) (h2 : Z -> Z -> Z -> Z) (container : Z) (s : gfx) : option (Z * Z) :=
  do (data, _) <- decode_data (g_decomp (f_s s)) (f_pos s);
  do (_, rest) <- decode_sprite (f_s s) container (f_pos s);
  Some (h2 (h1 data) (g_xofs (f_s s)) (g_yofs (f_s s)), len (f_pos s) - len rest + 18).
Definition put_size (sizes : list (Z * Z)) (e : Z * Z) : option (list (Z * Z)) :=
  do! ((match dict_get Z.eqb sizes (fst e) with Some n => n | None => snd e end) =? snd e); Some (dict_set Z.eqb sizes (fst e) (snd e)).
Fixpoint run_sizes (h1 : bytes -> Z) (h2 : Z -> Z -> Z -> Z) (container : Z) (ss : list gfx) (sizes : list (Z * Z)) : option (list (Z * Z)) :=
  match ss with [] => Some sizes | s :: r => do e <- enc_of h1 h2 container s; do sizes <- put_size sizes e; run_sizes h1 h2 container r sizes end.
Lemma run_sizes_app h1 h2 container a : forall b sizes, run_sizes h1 h2 container (a ++ b) sizes = do sizes <- run_sizes h1 h2 container a sizes; run_sizes h1 h2 container b sizes.
Proof. induction a as [|s a IH]; intros b sizes; [reflexivity|]. cbn [app run_sizes]. destruct (enc_of h1 h2 container s) as [e|]; [|reflexivity]. cbn [bind]. destruct (put_size sizes e); [apply IH|reflexivity]. Qed.
Lemma paint_sizes h1 h2 container s x y p : option_map p_size (paint_sprite h1 h2 container s x y p) = do e <- enc_of h1 h2 container s; put_size (p_size p) e.
Proof.
  unfold paint_sprite, enc_of. destruct (decode_data _ _) as [[data r0]|]; [|reflexivity]. cbn [bind]. destruct (decode_sprite _ _ _) as [[img rest]|]; [|reflexivity]. cbn [bind]. unfold put_size. cbn [fst snd]. cbv zeta.
  destruct (_ =? len (f_pos s) - len rest + 18); reflexivity.
Qed.
Lemma paint_all_sizes h1 h2 container members : forall places p, Forall (fun pl => nth_error members (fst pl) <> None) places ->
  option_map (fun r => p_size (snd r)) (paint_all h1 h2 container members places p) =
  run_sizes h1 h2 container (flat_map (fun i => match nth_error members i with Some s => [s] | None => [] end) (map fst places)) (p_size p).
Proof.
  induction places as [|[i [x y]] r IH]; intros p F; [reflexivity|]. inversion F as [|? ? N F']; subst. cbn [fst] in N. cbn [paint_all map flat_map fst]. destruct (nth_error members i) as [s|]; [|congruence]. cbn [bind app run_sizes].
  pose proof (paint_sizes h1 h2 container s x y p) as P. destruct (paint_sprite h1 h2 container s x y p) as [p1|]; cbn [option_map bind] in P |- *.
  - destruct (enc_of h1 h2 container s) as [e|]; [|discriminate]. cbn [bind] in P |- *. rewrite <- P. cbn [bind]. rewrite <- (IH p1 F'). destruct (paint_all h1 h2 container members r p1) as [[l1 p2]|]; reflexivity.
  - destruct (enc_of h1 h2 container s) as [e|]; [|reflexivity]. cbn [bind] in P |- *. rewrite <- P. reflexivity.
Qed.
Lemma extract_group_sizes h1 h2 container g members p : Forall sized members ->
  option_map (fun r => p_size (snd r)) (extract_group h1 h2 container g members p) = run_sizes h1 h2 container (filter kept members) (p_size p).
Proof.
  intros Sz. pose proof (places_spec members Sz) as P. unfold extract_group. destruct (sheet_size (map size_of members)) as [[W H] lo]. cbv zeta. destruct P as (P1 & _ & _ & _).
  match goal with |- context [paint_all _ _ _ _ _ ?q] => set (q0 := q) end. assert (N : Forall (fun pl => nth_error members (fst pl) <> None) (places_of members)).
  { apply Forall_forall. intros [i e] I. apply (in_map fst) in I. rewrite P1 in I. apply filter_In in I as [I _]. apply in_seq in I. cbn [fst] in *. apply nth_error_Some. lia. }
  pose proof (paint_all_sizes h1 h2 container members _ q0 N) as X. rewrite P1 in X. rewrite (nth_filter kept members members 0%nat (fun i => eq_refl)) in X. change (p_size p) with (p_size q0). rewrite <- X.
  destruct (paint_all h1 h2 container members (places_of members) q0) as [[l q]|]; reflexivity.
Qed.
Lemma extract_groups_sizes h1 h2 container : forall gs p, Forall (fun gm => Forall sized (snd gm)) gs ->
  (exists r, extract_groups h1 h2 container gs p = Some r) <-> (exists r, run_sizes h1 h2 container (flat_map (fun gm => filter kept (snd gm)) gs) (p_size p) = Some r).
Proof.
  induction gs as [|[g m] gs IH]; intros p F; [split; intros _; eexists; reflexivity|]. inversion F as [|? ? F1 F2]; subst. cbn [snd] in F1. cbn [extract_groups flat_map snd]. rewrite run_sizes_app.
  rewrite <- (extract_group_sizes h1 h2 container g m p F1). destruct (extract_group h1 h2 container g m p) as [[[fs es] p1]|]; cbn [bind option_map snd].
  - rewrite <- (IH p1 F2). destruct (extract_groups h1 h2 container gs p1) as [[fs' es']|]; cbn [bind]; split; intros [r E]; try discriminate E; eexists; reflexivity.
  - split; intros [r E]; discriminate E.
Qed.
Lemma run_sizes_iff h1 h2 container : forall ss sizes, (exists r, run_sizes h1 h2 container ss sizes = Some r) <->
  (forall s, In s ss -> exists e, enc_of h1 h2 container s = Some e) /\
  (forall s e n, In s ss -> enc_of h1 h2 container s = Some e -> dict_get Z.eqb sizes (fst e) = Some n -> n = snd e) /\
  (forall s s' e e', In s ss -> In s' ss -> enc_of h1 h2 container s = Some e -> enc_of h1 h2 container s' = Some e' -> fst e = fst e' -> snd e = snd e').
Proof.
  induction ss as [|s ss IH]; intros sizes; cbn [run_sizes].
  - split; [intros _; split; [intros ? []|split; [intros ? ? ? []|intros ? ? ? ? []]]|intros _; eexists; reflexivity].
  - destruct (enc_of h1 h2 container s) as [[k n]|] eqn:E; cbn [bind].
    2: { split; [intros [r H]; discriminate H|]. intros (A & _). destruct (A s (or_introl eq_refl)) as [e He]. congruence. }
    unfold put_size. cbn [fst snd]. destruct (Z.eqb_spec (match dict_get Z.eqb sizes k with Some n => n | None => n end) n) as [Q|Q]; cbn [bind].
    + rewrite IH. split.
      * intros (A & B & C). assert (Hd : forall s' e', In s' ss -> enc_of h1 h2 container s' = Some e' -> fst e' = k -> n = snd e').
        { intros s' e' I' E' K. apply (B s' e' n I' E'). rewrite (get_set Z.eqb zeqb_ok), K, Z.eqb_refl. reflexivity. }
        split; [|split].
        -- intros s' [<-|I]; [exists (k, n); exact E|apply A, I].
        -- intros s' e m [<-|I] E' G; [rewrite E in E'; apply some_inj in E'; subst e; cbn [fst snd] in *; rewrite G in Q; exact Q|].
           destruct (Z.eq_dec (fst e) k) as [K|K]; [rewrite K in G; rewrite G in Q; rewrite Q; apply (Hd s' e I E' K)|].
           apply (B s' e m I E'). rewrite (get_set Z.eqb zeqb_ok). destruct (Z.eqb_spec (fst e) k); [contradiction|exact G].
        -- intros a b ea eb [<-|Ia] [<-|Ib] Ea Eb K.
           ++ congruence.
           ++ rewrite E in Ea. apply some_inj in Ea. subst ea. cbn [fst snd] in *. apply (Hd b eb Ib Eb). congruence.
           ++ rewrite E in Eb. apply some_inj in Eb. subst eb. cbn [fst snd] in *. symmetry. apply (Hd a ea Ia Ea). exact K.
           ++ apply (C a b ea eb Ia Ib Ea Eb K).
      * intros (A & B & C). split; [intros s' I; apply A; now right|]. split.
        -- intros s' e m I E' G. rewrite (get_set Z.eqb zeqb_ok) in G. destruct (Z.eqb_spec (fst e) k) as [K|K]; [|apply (B s' e m (or_intror I) E' G)].
           apply some_inj in G. subst m. change n with (snd (k, n)). apply (C s s' (k, n) e (or_introl eq_refl) (or_intror I) E E'). symmetry. exact K.
        -- intros a b ea eb Ia Ib. apply C; right; assumption.
    + split; [intros [r H]; discriminate H|]. intros (A & B & C). exfalso. destruct (dict_get Z.eqb sizes k) as [m|] eqn:G; [|congruence]. apply Q. exact (B s (k, n) m (or_introl eq_refl) E G).
Qed.
Lemma decode_sprite_data s container f img rest : decode_sprite s container f = Some (img, rest) -> exists data, decode_data (g_decomp s) f = Some (data, rest).
Proof.
  unfold decode_sprite. intros H. apply bind_some in H as ([data f1] & D & H). exists data. rewrite D. destruct (negb _).
  - apply bind_some in H as (a & _ & H). apply some_inj in H. apply pair_inj in H as [_ <-]. reflexivity.
  - destruct (_ =? _); [|discriminate]. apply some_inj in H. apply pair_inj in H as [_ <-]. reflexivity.
Qed.
