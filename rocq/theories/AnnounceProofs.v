(** Proofs about AnnounceModel. *)
From Coq Require Import ZArith List Bool Lia String.
From Verif Require Import Base BaseFacts CommonModel RecordsModel RecordsProofs DecodeModel SheetProofs PyValue AnnounceModel SpecAnnounce.
Import ListNotations.
Open Scope string_scope.
Open Scope list_scope.
Open Scope Z_scope.

(** ** Dictionaries *)
Lemma get_set {K V} (eqb : K -> K -> bool) (Q : forall a b, eqb a b = true <-> a = b) (l : list (K * V)) k v k' :
  dict_get eqb (dict_set eqb l k v) k' = if eqb k' k then Some v else dict_get eqb l k'.
Proof.
  induction l as [|[a b] l IH]; cbn [dict_set dict_get].
  - destruct (eqb k' k); reflexivity.
  - destruct (eqb k a) eqn:E; cbn [dict_get].
    + apply Q in E. subst a. destruct (eqb k' k); reflexivity.
    + destruct (eqb k' a) eqn:F; [|exact IH]. apply Q in F. subst a. destruct (eqb k' k) eqn:G; [|reflexivity].
      apply Q in G. subst k'. rewrite (proj2 (Q k k) eq_refl) in E. discriminate.
Qed.
Lemma zeqb_ok : forall a b, Z.eqb a b = true <-> a = b. Proof. intros. apply Z.eqb_eq. Qed.
Lemma stat_ok : forall a b, stat_key_eqb a b = true <-> a = b.
Proof.
  intros [a t] [b u]. unfold stat_key_eqb. cbn [fst snd]. rewrite andb_true_iff, Z.eqb_eq. split.
  - intros [-> H]. destruct t, u; try discriminate H; reflexivity.
  - intros H. apply pair_inj in H as [-> ->]. split; [reflexivity|]. destruct u; reflexivity.
Qed.

(** ** Announcements *)
Lemma rd_H_word d n r : rd_H d = Some (n, r) -> word d = Some n /\ r = skipn 2 d.
Proof. destruct d as [|a [|b d]]; cbn; try discriminate. intros H. apply some_inj in H. apply pair_inj in H as [<- <-]. split; reflexivity. Qed.
Lemma rd_H_none d : rd_H d = None -> word d = None.
Proof. destruct d as [|a [|b d]]; cbn; try reflexivity; discriminate. Qed.
Lemma rd_ext_xbyte d : rd_ext d = xbyte d.
Proof.
  unfold rd_ext, xbyte. destruct d as [|b d]; [reflexivity|]. cbn [rd_B bind]. destruct (b =? 255); [|reflexivity]. cbn [negb].
  destruct (rd_H d) as [[n r]|] eqn:E; [apply rd_H_word in E as [-> ->]; reflexivity|apply rd_H_none in E as ->; reflexivity].
Qed.
Lemma name_feature f : name_of f = do f <- feature_of f; Some (feature_name f).
Proof.
  unfold feature_of. destruct (Z.leb_spec 0 f) as [A|A]; cbn [andb].
  - destruct (Z.leb_spec f 20) as [B|B]; cbn [bind].
    + assert (X : exists n, f = Z.of_nat n /\ (n < 21)%nat) by (exists (Z.to_nat f); lia). destruct X as (n & -> & L).
      do 21 (destruct n as [|n]; [reflexivity|]). lia.
    + unfold name_of. destruct (find _ NAMES) as [e|] eqn:E; [|reflexivity]. apply find_some in E as [I Q]. cbn in I. apply Z.eqb_eq in Q.
      repeat (destruct I as [<-|I]; [cbn in Q; lia|]). destruct I.
  - unfold name_of. destruct (find _ NAMES) as [e|] eqn:E; [|reflexivity]. apply find_some in E as [I Q]. cbn in I. apply Z.eqb_eq in Q.
    repeat (destruct I as [<-|I]; [cbn in Q; lia|]). destruct I.
Qed.
(** What an announcement does to the context. *)
Definition announce (o : option announcement) (c : ctx) : ctx :=
  match o with Some (Graphics name n) => set_graphics n name c | Some (Sounds n) => set_sound n c | None => c end.
Lemma sets_sum : forall k d, match rd_n rd_set k d with Some (l, _) => sets_of k d = Some (fold_right Z.add 0 (map snd l)) | None => sets_of k d = None end.
Proof.
  induction k as [|k IH]; intros d; cbn [rd_n sets_of]; [reflexivity|].
  destruct d as [|n [|lo [|hi d]]]; cbn [rd_set rd_B rd_H bind]; try reflexivity. specialize (IH d).
  destruct (rd_n rd_set k d) as [[l r]|]; cbn [bind]; rewrite IH; reflexivity.
Qed.
Lemma flag7 t : flag t 128 = Z.testbit t 7.
Proof.
  unfold flag. change 128 with (2 ^ 7). destruct (Z.testbit t 7) eqn:E.
  - destruct (Z.eqb_spec (Z.land t (2 ^ 7)) 0) as [N|N]; [|reflexivity]. assert (B : Z.testbit (Z.land t (2 ^ 7)) 7 = true) by (rewrite Z.land_spec, E; reflexivity).
    rewrite N in B. discriminate.
  - assert (N : Z.land t (2 ^ 7) = 0); [|rewrite N; reflexivity]. apply Z.bits_inj. intros k. rewrite Z.land_spec, Z.bits_0. destruct (Z.eq_dec k 7) as [->|Nk]; [rewrite E; reflexivity|].
    destruct (Z.ltb_spec k 0); [rewrite Z.testbit_neg_r by lia; reflexivity|]. rewrite Z.pow2_bits_false by lia. apply andb_false_r.
Qed.
Lemma decode_in_spec t d c : decode_in t d c = announce (announced (255, t :: d)) c.
Proof.
  unfold decode_in, announced. cbn [fst snd]. change (255 =? 255) with true. cbn match.
  destruct (Z.eqb_spec t 1) as [->|N1].
  { unfold announced1, decode_action1. destruct d as [|f [|sets d]]; cbn [rd_B bind]; try reflexivity.
    - destruct (feature_of f); reflexivity.
    - rewrite name_feature. destruct (feature_of f) as [g|] eqn:F; cbn [bind]; [|reflexivity]. destruct (sets =? 0).
      + rewrite rd_ext_xbyte. destruct (xbyte d) as [[a e]|]; cbn [bind]; [|reflexivity]. rewrite rd_ext_xbyte. destruct (xbyte e) as [[b h]|]; cbn [bind]; [|reflexivity].
        rewrite rd_ext_xbyte. destruct (xbyte h) as [[n ?]|]; reflexivity.
      + rewrite rd_ext_xbyte. destruct (xbyte d) as [[a e]|]; reflexivity. }
  destruct (Z.eqb_spec t 5) as [->|N5].
  { unfold announced5, decode_action5. destruct d as [|f d]; cbn [rd_B bind]; [reflexivity|]. rewrite rd_ext_xbyte. destruct (xbyte d) as [[n e]|]; cbn [bind]; [|reflexivity].
    rewrite flag7. destruct (Z.testbit f 7); [|reflexivity]. rewrite rd_ext_xbyte. destruct (xbyte e) as [[? ?]|]; reflexivity. }
  destruct (Z.eqb_spec t 10) as [->|N10].
  { unfold announcedA, decode_actionA. destruct d as [|k d]; cbn [rd_B bind]; [reflexivity|]. pose proof (sets_sum (Z.to_nat k) d) as E. destruct (rd_n rd_set (Z.to_nat k) d) as [[l r]|]; cbn [bind]; rewrite E; reflexivity. }
  destruct (Z.eqb_spec t 17) as [->|N17].
  { unfold decode_action11. destruct (rd_H d) as [[n r]|] eqn:E; cbn [bind]; [apply rd_H_word in E as [-> _]|apply rd_H_none in E as ->]; reflexivity. }
  assert (G : c = announce None c) by reflexivity.
  destruct t as [|p|p]; try exact G; repeat (destruct p as [p|p|]; try exact G); contradiction.
Qed.

Lemma decode_in_some t d c o : announced (255, t :: d) = o -> decode_in t d c = announce o c.
Proof. intros <-. apply decode_in_spec. Qed.

(** ** Steps *)
Lemma count_core k s c : x_type (count k s c) = x_type c /\ x_group (count k s c) = x_group c /\ x_groups (count k s c) = x_groups c /\
  x_amount (count k s c) = x_amount c /\ x_sprites (count k s c) = x_sprites c.
Proof. unfold count. destruct (match dict_get _ _ _ with Some e => e | None => (0, 0) end) as [n m]. repeat split. Qed.
(** Contexts that differ in the statistics only. *)
Definition alike (a b : ctx) : Prop :=
  x_type a = x_type b /\ x_group a = x_group b /\ x_groups a = x_groups b /\ x_amount a = x_amount b /\ x_sprites a = x_sprites b.
Lemma alike_count k s c : alike (count k s c) c. Proof. exact (count_core k s c). Qed.
Lemma alike_reset a b : alike a b -> alike (reset a) (reset b).
Proof. intros (A & B & C & D & E). unfold alike, reset. cbn. rewrite C, E. repeat split. Qed.
Lemma alike_consume i a b : alike a b -> alike (consume i a) (consume i b).
Proof.
  intros (A & B & C & D & E). destruct a as [a1 a2 a3 a4 a5 a6], b as [b1 b2 b3 b4 b5 b6]. cbn in *. subst. unfold consume. destruct i as [i|]; cbn; destruct b1; cbn; try (repeat split; fail);
  destruct (b4 - 1 <=? 0); repeat split.
Qed.
Lemma alike_announce o a b : alike a b -> alike (announce o a) (announce o b).
Proof.
  intros (A & B & C & D & E). destruct a as [a1 a2 a3 a4 a5 a6], b as [b1 b2 b3 b4 b5 b6]. cbn in *. subst. destruct o as [[name n|n]|]; repeat split.
Qed.
Lemma alike_trans a b c : alike a b -> alike b c -> alike a c.
Proof. intros (A & B & C & D & E) (A' & B' & C' & D' & E'). unfold alike. repeat split; congruence. Qed.
Lemma alike_get a b i : alike a b -> get_sprite_data a i = get_sprite_data b i.
Proof. intros (_ & _ & _ & _ & E). unfold get_sprite_data. now rewrite E. Qed.

Lemma rd_I_four (d : bytes) : match d with [a; b; c; e] => rd_I d = Some (Z.lor (Z.lor (Z.lor a (Z.shiftl b 8)) (Z.shiftl c 16)) (Z.shiftl e 24), []) | _ => True end.
Proof. destruct d as [|a [|b [|c [|e [|? ?]]]]]; try exact I. reflexivity. Qed.
Lemma reference_inv r i : reference r = Some i -> exists d, r = (253, d) /\ len d = 4 /\ rd_I d = Some (i, []).
Proof.
  unfold reference. destruct r as [t d]. cbn [fst snd]. destruct (Z.eqb_spec t 253) as [->|]; [|discriminate]. pose proof (rd_I_four d) as E.
  destruct d as [|a [|b [|c [|e [|? ?]]]]]; try discriminate. intros H. apply some_inj in H. subst i. eexists. split; [reflexivity|]. split; [reflexivity|exact E].
Qed.
Lemma step_reference r i c c' : reference r = Some i -> read_record r c = Some c' -> alike c' (consume (Some i) c).
Proof.
  intros R H. apply reference_inv in R as (d & -> & L & E). unfold read_record in H. change (253 =? 255) with false in H. change (253 =? 253) with true in H. cbn match in H.
  rewrite L in H. change (4 =? 4) with true in H. cbn match in H. rewrite E in H. cbn [bind] in H. apply some_inj in H. subst c'. apply alike_consume, alike_count.
Qed.
Lemma step_action t d c c' : x_type c <> TSound -> read_record (255, t :: d) c = Some c' -> alike c' (announce (announced (255, t :: d)) c).
Proof.
  intros N H. unfold read_record in H. change (255 =? 255) with true in H. cbn match in H. destruct d as [|e d].
  - apply some_inj in H. subst c'. assert (A : announced (255, [t]) = None).
    { unfold announced. cbn [fst snd]. change (255 =? 255) with true. cbn match. assert (G : @None announcement = None) by reflexivity. destruct t as [|p|p]; try exact G; repeat (destruct p as [p|p|]; try exact G). }
    rewrite A. repeat split.
  - apply some_inj in H. subst c'. unfold decode_pseudo_sprite, count_action.
    match goal with |- context [count ?k ?s c] => pose proof (alike_count k s c) as A; set (c1 := count k s c) in * end.
    assert (T : x_type c1 = x_type c) by apply A. rewrite T. destruct (x_type c) eqn:Ty; try contradiction; rewrite decode_in_spec; apply alike_announce, A.
Qed.
Lemma step_action_some t d c c' o : announced (255, t :: d) = o -> x_type c <> TSound -> read_record (255, t :: d) c = Some c' -> alike c' (announce o c).
Proof. intros <-. apply step_action. Qed.
(** Announcements end a list of sounds. *)
Lemma step_announced t d c c' g : announced (255, t :: d) = Some g -> read_record (255, t :: d) c = Some c' ->
  exists c0, alike c' (announce (Some g) c0) /\ x_groups c0 = x_groups c /\ x_sprites c0 = x_sprites c.
Proof.
  intros G H. destruct (x_type c) eqn:Ty; try (exists c; split; [rewrite <- G; apply step_action; [congruence|exact H]|split; reflexivity]).
  unfold read_record in H. change (255 =? 255) with true in H. cbn match in H. destruct d as [|e d].
  - exfalso. unfold announced in G. cbn [fst snd] in G. change (255 =? 255) with true in G. cbn match in G. assert (F : @None announcement = Some g -> False) by discriminate.
    destruct t as [|p|p]; try exact (F G); repeat (destruct p as [p|p|]; try exact (F G)).
  - apply some_inj in H. subst c'. unfold decode_pseudo_sprite, count_action.
    match goal with |- context [count ?k ?s c] => pose proof (alike_count k s c) as A; set (c1 := count k s c) in * end.
    assert (T : x_type c1 = x_type c) by apply A. rewrite T, Ty.
    destruct (Z.eqb_spec t 254) as [->|N]; [discriminate G|]. destruct (Z.eqb_spec t 255) as [->|N']; [discriminate G|]. rewrite (decode_in_some _ _ _ _ G).
    exists (reset c). split; [|split; reflexivity]. apply alike_announce, alike_reset, A.
Qed.

(** The number of groups of a name. *)
Definition groups_of (c : ctx) (name : bytes) : Z := match dict_get bytes_eq (x_groups c) name with Some n => n | None => 0 end.
Lemma consume_groups i c : x_groups (consume i c) = x_groups c.
Proof. unfold consume. destruct i; cbn; destruct (x_type c); cbn; try reflexivity; destruct (x_amount c - 1 <=? 0); reflexivity. Qed.
Lemma alike_groups a b : alike a b -> x_groups a = x_groups b. Proof. intros (_ & _ & E & _). exact E. Qed.
Definition counts (name : bytes) (o : option announcement) : Z := match o with Some (Graphics n _) => if list_eq_dec Z.eq_dec n name then 1 else 0 | _ => 0 end.
Lemma earlier_cons name r l : earlier name (r :: l) = counts name (announced r) + earlier name l.
Proof.
  unfold earlier, counts. cbn [filter]. destruct (announced r) as [[n k|k]|]; try lia. destruct (list_eq_dec Z.eq_dec n name); [|lia]. unfold len. cbn [List.length]. lia.
Qed.
Lemma groups_announce g c name : groups_of (announce (Some g) c) name = counts name (Some g) + groups_of c name.
Proof.
  unfold groups_of. destruct g as [n k|k]; cbn [announce counts set_sound set_graphics x_groups]; [|lia]. rewrite (get_set bytes_eq bytes_eq_iff).
  destruct (bytes_eq name n) eqn:E.
  - apply bytes_eq_iff in E. subst n. destruct (list_eq_dec Z.eq_dec name name); [lia|contradiction].
  - destruct (list_eq_dec Z.eq_dec n name) as [->|]; [|lia]. rewrite (proj2 (bytes_eq_iff name name) eq_refl) in E. discriminate.
Qed.
Lemma step_groups r c c' name : read_record r c = Some c' -> groups_of c' name = counts name (announced r) + groups_of c name.
Proof.
  intros H. unfold groups_of. destruct (announced r) as [g|] eqn:G.
  - destruct r as [t [|a d]]; [unfold announced in G; cbn [fst snd] in G; destruct (t =? 255); discriminate G|].
    assert (T : t = 255) by (unfold announced in G; cbn [fst] in G; destruct (Z.eqb_spec t 255); [assumption|discriminate G]). subst t.
    destruct (step_announced _ _ _ _ _ G H) as (c0 & A & B & _). rewrite (alike_groups _ _ A). pose proof (groups_announce g c0 name) as E. unfold groups_of in E. rewrite B in E. exact E.
  - cbn [counts]. replace (x_groups c') with (x_groups c); [lia|]. unfold read_record in H. destruct r as [t d]. destruct (Z.eqb_spec t 255) as [->|N].
    + destruct d as [|a [|b d]]; [discriminate H|apply some_inj in H; subst; reflexivity|]. apply some_inj in H. subst c'. unfold decode_pseudo_sprite, count_action.
      match goal with |- context [count ?k ?s c] => pose proof (alike_count k s c) as A; set (c1 := count k s c) in * end. assert (X : x_groups c1 = x_groups c) by apply A.
      destruct (x_type c1); try (rewrite (decode_in_some _ _ _ _ G); symmetry; exact X). destruct (a =? 254); [destruct (decode_actionFE (b :: d)); rewrite ?consume_groups; symmetry; exact X|].
      destruct (a =? 255); [|rewrite (decode_in_some _ _ _ _ G)]; symmetry; exact X.
    + destruct (t =? 253).
      * destruct (len d =? 4); [|discriminate H]. apply bind_some in H as ([i ?] & _ & H). apply some_inj in H. subst c'. rewrite consume_groups. symmetry. apply alike_groups, alike_count.
      * destruct d as [|a d]; [discriminate H|]. apply some_inj in H. subst c'. rewrite consume_groups. symmetry. apply alike_groups, alike_count.
Qed.
Lemma read_groups name : forall l c c', read_records l c = Some c' -> groups_of c' name = earlier name l + groups_of c name.
Proof.
  induction l as [|r l IH]; intros c c' H; cbn [read_records] in H; [apply some_inj in H; subst; reflexivity|]. apply bind_some in H as (c1 & R & H).
  rewrite (IH _ _ H), (step_groups _ _ _ name R), earlier_cons. lia.
Qed.
Lemma read_app : forall a b c c', read_records (a ++ b) c = Some c' -> exists c1, read_records a c = Some c1 /\ read_records b c1 = Some c'.
Proof.
  induction a as [|r a IH]; intros b c c' H; cbn [app read_records] in *; [eauto|]. apply bind_some in H as (c1 & R & H). destruct (IH _ _ _ H) as (c2 & A & B). exists c2. rewrite R. cbn [bind]. auto.
Qed.
(** A sprite that is not referred to keeps its group. *)
Lemma consume_get i c j : Some j <> i -> get_sprite_data (consume i c) j = get_sprite_data c j.
Proof.
  intros N. unfold get_sprite_data, consume. destruct i as [i|]; cbn; [|destruct (x_type c); cbn; try reflexivity; destruct (x_amount c - 1 <=? 0); reflexivity].
  destruct (x_type c) eqn:T; cbn; try (destruct (x_amount c - 1 <=? 0); cbn); rewrite (get_set Z.eqb zeqb_ok); destruct (Z.eqb_spec j i); try congruence; reflexivity.
Qed.
Lemma step_get r c c' i : read_record r c = Some c' -> reference r <> Some i -> get_sprite_data c' i = get_sprite_data c i.
Proof.
  intros H N. destruct (reference r) as [j|] eqn:R.
  { rewrite (alike_get _ _ i (step_reference _ _ _ _ R H)). apply consume_get. congruence. }
  unfold read_record in H. destruct r as [t d]. destruct (Z.eqb_spec t 255) as [->|N5].
  - destruct d as [|a [|b d]]; [discriminate H|apply some_inj in H; subst; reflexivity|]. apply some_inj in H. subst c'. unfold decode_pseudo_sprite, count_action.
    match goal with |- context [count ?k ?s c] => pose proof (alike_count k s c) as A; set (c1 := count k s c) in * end. rewrite <- (alike_get _ _ i A).
    assert (X : forall o c, get_sprite_data (announce o c) i = get_sprite_data c i) by (intros [[|]|] ?; reflexivity). 
    destruct (x_type c1); try (rewrite decode_in_spec; apply X). destruct (a =? 254); [destruct (decode_actionFE (b :: d)); [apply consume_get; discriminate|reflexivity]|]. destruct (a =? 255); [|rewrite decode_in_spec, X]; reflexivity.
  - destruct (Z.eqb_spec t 253) as [->|N3].
    + destruct (len d =? 4) eqn:L; [|discriminate H]. apply Z.eqb_eq in L. unfold reference in R. cbn [fst snd] in R. change (253 =? 253) with true in R. cbn match in R.
      destruct d as [|? [|? [|? [|? [|? ?]]]]]; try discriminate R; unfold len in L; cbn [List.length] in L; lia.
    + destruct d as [|a d]; [discriminate H|]. apply some_inj in H. subst c'. rewrite consume_get by discriminate. apply alike_get, alike_count.
Qed.
Lemma in_references i r l : In i (references (r :: l)) <-> reference r = Some i \/ In i (references l).
Proof.
  unfold references. cbn [flat_map]. rewrite in_app_iff. split; (intros [H|H]; [left|right; exact H]).
  - destruct (reference r) as [j|]; [destruct H as [->|[]]; reflexivity|destruct H].
  - rewrite H. left. reflexivity.
Qed.
Lemma read_get i : forall l c c', read_records l c = Some c' -> ~ In i (references l) -> get_sprite_data c' i = get_sprite_data c i.
Proof.
  induction l as [|r l IH]; intros c c' H N; cbn [read_records] in H; [apply some_inj in H; subst; reflexivity|]. apply bind_some in H as (c1 & R & H).
  rewrite in_references in N. rewrite (IH _ _ H) by tauto. apply (step_get r); [exact R|tauto].
Qed.

(** ** Blocks *)
Lemma references_cons r l : references (r :: l) = match reference r with Some i => [i] | None => [] end ++ references l. Proof. reflexivity. Qed.
Lemma plain_action r : plain r -> reference r = None -> exists d, r = (255, d).
Proof. intros [[F|[i R]] _] N; [exists (snd r); destruct r; cbn in F; subst; reflexivity|congruence]. Qed.
Lemma plain_step r c c' : plain r -> x_type c <> TSound -> read_record r c = Some c' ->
  alike c' (match reference r with Some i => consume (Some i) c | None => c end).
Proof.
  intros P T H. destruct (reference r) as [i|] eqn:R; [exact (step_reference _ _ _ _ R H)|]. destruct (plain_action r P R) as [d ->]. destruct P as [_ N].
  destruct d as [|t d]; [discriminate H|]. exact (step_action_some _ _ _ _ _ N T H).
Qed.
(** In the middle of a group: [n] sprites are still to come. *)
Definition waiting (c : ctx) (t : ptype) (g : option bytes) (n : Z) : Prop :=
  if n <=? 0 then x_type c = TDefault /\ x_group c = None else x_type c = t /\ x_group c = g /\ x_amount c = n.
Lemma waiting_alike a b t g n : alike a b -> waiting b t g n -> waiting a t g n.
Proof. intros (A & B & _ & D & _). unfold waiting. rewrite A, B, D. auto. Qed.
Lemma waiting_consume i c t g n : t <> TDefault -> waiting c t g n -> 0 < n -> waiting (consume (Some i) c) t g (n - 1) /\ get_sprite_data (consume (Some i) c) i = (t, g).
Proof.
  intros T W N. unfold waiting in W. destruct (Z.leb_spec n 0); [lia|]. destruct W as (A & B & D). unfold consume, waiting, get_sprite_data. cbn. rewrite A, B, D.
  destruct t; [contradiction T; reflexivity| |]; cbn; (destruct (Z.leb_spec (n - 1) 0); cbn; rewrite (get_set Z.eqb zeqb_ok), Z.eqb_refl; split; [split|reflexivity|split|reflexivity]; reflexivity || (split; reflexivity)).
Qed.
Lemma block_graphics g : forall l n c c', Forall plain l -> waiting c TGraphics g n -> len (references l) <= n -> 0 <= n -> read_records l c = Some c' ->
  waiting c' TGraphics g (n - len (references l)) /\ forall i, In i (references l) -> get_sprite_data c' i = (TGraphics, g).
Proof.
  induction l as [|r l IH]; intros n c c' P W L N H; cbn [read_records] in H.
  - apply some_inj in H. subst c'. split; [unfold references; cbn; rewrite Z.sub_0_r; exact W|intros i []].
  - apply bind_some in H as (c1 & R & H). inversion P as [|? ? P1 P2]; subst. rewrite references_cons in L |- *.
    assert (T : x_type c <> TSound). { unfold waiting in W. destruct (n <=? 0); [destruct W as [W _]|destruct W as [W _]]; rewrite W; discriminate. }
    pose proof (plain_step r c c1 P1 T R) as A. destruct (reference r) as [j|] eqn:E.
    + cbn [app] in *. unfold len in *. cbn [List.length] in *. assert (0 < n) by lia. destruct (waiting_consume j c TGraphics g n) as [W1 G1]; [discriminate|exact W|lia|].
      destruct (IH (n - 1) c1 c') as [X Y]; [exact P2|exact (waiting_alike _ _ _ _ _ A W1)|lia|lia|exact H|]. split.
      * replace (n - Z.of_nat (S (List.length (references l)))) with (n - 1 - Z.of_nat (List.length (references l))) by lia. exact X.
      * intros i [<-|I]; [|exact (Y i I)]. destruct (in_dec Z.eq_dec j (references l)) as [I|I]; [exact (Y j I)|]. rewrite (read_get j _ _ _ H I), (alike_get _ _ j A). exact G1.
    + cbn [app] in *. destruct (IH n c1 c' P2 (waiting_alike _ _ _ _ _ A W) L N H) as [X Y]. split; [exact X|exact Y].
Qed.
Lemma sound_step r c c' n : sound r -> waiting c TSound None n -> 0 < n -> read_record r c = Some c' ->
  waiting c' TSound None (n - 1) /\ forall i, reference r = Some i -> get_sprite_data c' i = (TSound, None).
Proof.
  intros S W N H. destruct S as [[i R]|[F (a & b & d & e & lo & hi & rest & E)]].
  - pose proof (step_reference _ _ _ _ R H) as A. destruct (waiting_consume i c TSound None n) as [W1 G1]; [discriminate|exact W|exact N|]. split; [exact (waiting_alike _ _ _ _ _ A W1)|].
    intros j J. rewrite R in J. apply some_inj in J. subst j. rewrite (alike_get _ _ i A). exact G1.
  - destruct r as [t x]. cbn [fst snd] in *. subst t x. split; [|intros i R; discriminate R]. unfold read_record in H. change (255 =? 255) with true in H. cbn match in H. apply some_inj in H. subst c'.
    unfold decode_pseudo_sprite, count_action. match goal with |- context [count ?k ?s c] => pose proof (alike_count k s c) as A; set (c1 := count k s c) in * end.
    pose proof (waiting_alike _ _ _ _ _ A W) as W1. unfold waiting in W1. destruct (Z.leb_spec n 0); [lia|]. destruct W1 as (T & G & M). rewrite T. change (254 =? 254) with true. cbn match.
    unfold decode_actionFE. cbn [skipn rd_H rd_B bind]. unfold consume, waiting. rewrite T. cbn. rewrite G, M. destruct (Z.leb_spec (n - 1) 0); cbn; split; try reflexivity. split; reflexivity.
Qed.
Lemma block_sounds : forall l n c c', Forall sound l -> waiting c TSound None n -> len l <= n -> read_records l c = Some c' ->
  waiting c' TSound None (n - len l) /\ forall i, In i (references l) -> get_sprite_data c' i = (TSound, None).
Proof.
  induction l as [|r l IH]; intros n c c' P W L H; cbn [read_records] in H.
  - apply some_inj in H. subst c'. split; [unfold len; cbn; rewrite Z.sub_0_r; exact W|intros i []].
  - apply bind_some in H as (c1 & R & H). inversion P as [|? ? P1 P2]; subst. unfold len in *. cbn [List.length] in *.
    destruct (sound_step r c c1 n P1 W ltac:(lia) R) as [W1 G1]. destruct (IH (n - 1) c1 c' P2 W1 ltac:(lia) H) as [X Y]. split.
    + replace (n - Z.of_nat (S (List.length l))) with (n - 1 - Z.of_nat (List.length l)) by lia. exact X.
    + intros i I. apply in_references in I as [E|I]; [|exact (Y i I)]. destruct (in_dec Z.eq_dec i (references l)) as [J|J]; [exact (Y i J)|]. rewrite (read_get i _ _ _ H J). exact (G1 i E).
Qed.
(** The context at an announcement. *)
Lemma announced_action r g : announced r = Some g -> exists t d, r = (255, t :: d).
Proof.
  unfold announced. destruct r as [t [|a d]]; cbn [fst snd]; [destruct (t =? 255); discriminate|]. destruct (Z.eqb_spec t 255) as [->|]; [|discriminate]. intros _. eauto.
Qed.
Lemma step_graphics r name n c c' : announced r = Some (Graphics name n) -> 0 < n -> read_record r c = Some c' ->
  waiting c' TGraphics (Some (group_name name (groups_of c name))) n.
Proof.
  intros G N H. destruct (announced_action _ _ G) as (t & d & ->). destruct (step_announced _ _ _ _ _ G H) as (c0 & A & B & _). apply (waiting_alike _ _ _ _ _ A).
  unfold waiting, announce, set_graphics, groups_of. rewrite B. destruct (Z.leb_spec n 0); [lia|]. cbn. repeat split.
Qed.
Lemma step_sounds r n c c' : announced r = Some (Sounds n) -> 0 < n -> read_record r c = Some c' -> waiting c' TSound None n.
Proof.
  intros G N H. destruct (announced_action _ _ G) as (t & d & ->). destruct (step_announced _ _ _ _ _ G H) as (c0 & A & B & _). apply (waiting_alike _ _ _ _ _ A).
  unfold waiting, announce, set_sound. destruct (Z.leb_spec n 0); [lia|]. cbn. repeat split.
Qed.
(** After the last sprite of a group. *)
Lemma step_stray r i c c' t g : reference r = Some i -> waiting c t g 0 -> read_record r c = Some c' -> get_sprite_data c' i = (TDefault, None).
Proof.
  intros R W H. rewrite (alike_get _ _ i (step_reference _ _ _ _ R H)). unfold waiting in W. cbn in W. destruct W as [A B]. unfold consume, get_sprite_data. cbn. rewrite A, B. cbn.
  rewrite (get_set Z.eqb zeqb_ok), Z.eqb_refl. reflexivity.
Qed.
(** ** Names *)
Lemma group_numbered name k : 0 <= k -> numbered name k (group_name name k).
Proof.
  intros K. exists (str_nat k). split; [reflexivity|]. unfold str_nat. split; [|split].
  - cbn [dec_digits]. destruct (k <? 10); [discriminate|]. destruct (dec_digits (Z.to_nat k) (k / 10)); discriminate.
  - assert (D : forall fuel n, 0 <= n -> forallb (fun c => (48 <=? c) && (c <=? 57)) (dec_digits fuel n) = true).
    { induction fuel as [|fuel IH]; intros n N; [reflexivity|]. cbn [dec_digits]. destruct (Z.ltb_spec n 10).
      - cbn [forallb]. rewrite andb_true_r. apply andb_true_intro. lia.
      - rewrite forallb_app, IH by (apply Z.div_pos; lia). cbn [forallb andb]. pose proof (Z.mod_pos_bound n 10 ltac:(lia)). rewrite andb_true_r. apply andb_true_intro. lia. }
    apply D. exact K.
  - apply (dec_digits_val (S (Z.to_nat k)) k). lia.
Qed.
Lemma digits_app a b x y : a ++ 95 :: x = b ++ 95 :: y -> forallb (fun c => (48 <=? c) && (c <=? 57)) x = true -> forallb (fun c => (48 <=? c) && (c <=? 57)) y = true -> a = b /\ x = y.
Proof.
  revert b. induction a as [|c a IH]; intros [|d b] E X Y; cbn [app] in E.
  - injection E as ->. split; reflexivity.
  - injection E as <- E. subst x. rewrite forallb_app in X. apply andb_true_iff in X as [_ X]. discriminate X.
  - injection E as -> E. subst y. rewrite forallb_app in Y. apply andb_true_iff in Y as [_ Y]. discriminate Y.
  - injection E as -> E. destruct (IH b E X Y) as [-> ->]. split; reflexivity.
Qed.
Lemma numbered_inj a i b j g : numbered a i g -> numbered b j g -> a = b /\ i = j.
Proof. intros (x & E & _ & X & <-) (y & F & _ & Y & <-). rewrite E in F. destruct (digits_app _ _ _ _ F X Y) as [-> ->]. split; reflexivity. Qed.
Lemma numbered_last a i g : numbered a i g -> exists p c, g = p ++ [c] /\ 48 <= c <= 57.
Proof.
  intros (x & -> & N & X & _). destruct (exists_last N) as (p & c & ->). exists (a ++ 95 :: p), c. split; [rewrite <- app_assoc; reflexivity|].
  rewrite forallb_app in X. apply andb_true_iff in X as [_ X]. cbn in X. rewrite andb_true_r in X. apply andb_true_iff in X. lia.
Qed.

(** ** Statistics *)
Definition stat (c : ctx) (k : stat_key) : Z * Z := match dict_get stat_key_eqb (x_stats c) k with Some e => e | None => (0, 0) end.
Lemma stat_count k s c k' : stat (count k s c) k' = if stat_key_eqb k' k then (fst (stat c k) + 1, snd (stat c k) + s) else stat c k'.
Proof.
  unfold stat at 1, count. fold (stat c k). destruct (stat c k) as [n m] eqn:E. cbn [x_stats fst snd]. rewrite (get_set stat_key_eqb stat_ok). destruct (stat_key_eqb k' k); [reflexivity|]. unfold stat. reflexivity.
Qed.
Lemma stats_reset c : x_stats (reset c) = x_stats c. Proof. reflexivity. Qed.
Lemma stats_consume i c : x_stats (consume i c) = x_stats c.
Proof. unfold consume. destruct i; cbn; destruct (x_type c); cbn; try reflexivity; destruct (x_amount c - 1 <=? 0); reflexivity. Qed.
Lemma stats_announce o c : x_stats (announce o c) = x_stats c. Proof. destruct o as [[|]|]; reflexivity. Qed.
Lemma stats_decode t d c : x_stats (decode_pseudo_sprite t d c) = x_stats c.
Proof.
  unfold decode_pseudo_sprite. destruct (x_type c); try (rewrite decode_in_spec; apply stats_announce). destruct (t =? 254); [destruct (decode_actionFE d); [apply stats_consume|reflexivity]|].
  destruct (t =? 255); [reflexivity|]. rewrite decode_in_spec, stats_announce. reflexivity.
Qed.
Lemma stat_same c c' k : x_stats c = x_stats c' -> stat c k = stat c' k. Proof. intros E. unfold stat. now rewrite E. Qed.
Lemma step_stat r c c' a : (fst r = 255 \/ fst r = 253) -> a < 253 -> read_record r c = Some c' ->
  stat c' (a, TDefault) = let l := actions_of a [r] in (fst (stat c (a, TDefault)) + len l, snd (stat c (a, TDefault)) + file_bytes l + 4 * len l).
Proof.
  intros F L H. destruct r as [t d]. cbn [fst] in F. unfold actions_of. cbn [filter fst snd]. unfold read_record in H. destruct F as [-> | ->].
  - change (255 =? 255) with true in *. cbn match in H. cbn [andb]. destruct d as [|b [|e d]]; [discriminate H| |]; apply some_inj in H; subst c'.
    + cbv zeta. cbn. rewrite !Z.add_0_r. destruct (stat c (a, TDefault)); reflexivity.
    + rewrite (stat_same _ _ _ (stats_decode _ _ _)). unfold count_action. rewrite stat_count. unfold stat_key_eqb. cbn [fst snd]. cbv zeta. destruct (Z.eqb_spec b a) as [->|N].
      * rewrite Z.eqb_refl. destruct (Z.ltb_spec 253 a); [lia|]. cbn [ptype_eqb andb]. unfold file_bytes. cbn [map fold_right snd]. change (len [(255, a :: e :: d)]) with 1. f_equal; lia.
      * destruct (Z.eqb_spec a b); [congruence|]. cbn. rewrite !Z.add_0_r. destruct (stat c (a, TDefault)); reflexivity.
  - change (253 =? 255) with false in *. change (253 =? 253) with true in H. cbn match in H. cbn [andb]. destruct (len d =? 4); [|discriminate H]. apply bind_some in H as ([i ?] & _ & H). apply some_inj in H. subst c'.
    rewrite (stat_same _ _ _ (stats_consume _ _)). unfold count_action. rewrite stat_count. unfold stat_key_eqb. cbn [fst snd]. destruct (Z.eqb_spec a 253); [lia|]. cbn. rewrite !Z.add_0_r. destruct (stat c (a, TDefault)); reflexivity.
Qed.
Lemma actions_cons a r l : actions_of a (r :: l) = actions_of a [r] ++ actions_of a l.
Proof. unfold actions_of. cbn [filter]. destruct (_ && _); reflexivity. Qed.
Lemma bytes_app a b : file_bytes (a ++ b) = file_bytes a + file_bytes b.
Proof. unfold file_bytes. induction a as [|r a IH]; cbn [app map fold_right]; [lia|]. lia. Qed.
Lemma read_stat a : a < 253 -> forall l c c', Forall (fun r => fst r = 255 \/ fst r = 253) l -> read_records l c = Some c' ->
  stat c' (a, TDefault) = let l := actions_of a l in (fst (stat c (a, TDefault)) + len l, snd (stat c (a, TDefault)) + file_bytes l + 4 * len l).
Proof.
  intros L. induction l as [|r l IH]; intros c c' F H; cbn [read_records] in H.
  - apply some_inj in H. subst c'. cbn. rewrite !Z.add_0_r. destruct (stat c (a, TDefault)); reflexivity.
  - apply bind_some in H as (c1 & R & H). inversion F as [|? ? F1 F2]; subst. rewrite (IH _ _ F2 H), (step_stat _ _ _ a F1 L R), (actions_cons a r l). cbv zeta. cbn [fst snd].
    rewrite bytes_app. unfold len. rewrite app_length. f_equal; lia.
Qed.
Lemma reals_stat a : a < 253 -> forall l c, stat (count_reals l c) (a, TDefault) = stat c (a, TDefault).
Proof.
  intros L. induction l as [|[i d] l IH]; intros c; cbn [count_reals]; [reflexivity|]. rewrite IH. unfold count_real_sprite. rewrite stat_count. unfold stat_key_eqb. cbn [fst]. destruct (Z.eqb_spec a 255); [lia|]. reflexivity.
Qed.
Lemma reals_get : forall l c i, get_sprite_data (count_reals l c) i = get_sprite_data c i.
Proof. induction l as [|[j d] l IH]; intros c i; cbn [count_reals]; [reflexivity|]. rewrite IH. apply alike_get, alike_count. Qed.
