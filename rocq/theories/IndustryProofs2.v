(** Lemmas about the layouts of an industry. *)
From Coq Require Import ZArith List Bool Lia FinFun.
From Verif Require Import Base BaseFacts RecordsModel IndustryModel SpecIndustry IndustryProofs.
Import ListNotations.
Open Scope Z_scope.

Lemma occupy_spec keys : forall occ occ', occupy keys occ = Some occ' -> NoDup occ -> occ' = occ ++ keys /\ NoDup occ'.
Proof.
  induction keys as [|k keys IH]; intros occ occ' E N; cbn [occupy] in E; [apply some_inj in E; subst; rewrite app_nil_r; auto|].
  destruct (existsb (pos_eqb k) occ) eqn:X; cbn [negb] in E; [discriminate|].
  assert (NI : ~ In k occ). { intros I. assert (existsb (pos_eqb k) occ = true) by (apply existsb_exists; exists k; split; [exact I|apply pos_eqb_refl]). congruence. }
  destruct (IH _ _ E (nodup_snoc _ _ N NI)) as [-> N']. rewrite <- app_assoc in *. auto.
Qed.
Lemma occupy_total keys : forall occ, NoDup (occ ++ keys) -> occupy keys occ = Some (occ ++ keys).
Proof.
  induction keys as [|k keys IH]; intros occ N; cbn [occupy]; [now rewrite app_nil_r|].
  assert (X : existsb (pos_eqb k) occ = false).
  { destruct (existsb (pos_eqb k) occ) eqn:X; [|reflexivity]. apply existsb_exists in X as (k' & I & E). apply pos_eqb_eq in E. subst k'.
    exfalso. apply NoDup_remove_2 in N. apply N. apply in_or_app. now left. }
  rewrite X. cbn [negb]. rewrite IH; rewrite <- app_assoc; auto.
Qed.

Lemma in_range0 n i : In i (range0 n) <-> 0 <= i < n.
Proof. unfold range0. rewrite in_map_iff. split; [intros (k & <- & K); apply in_seq in K; lia|]. intros H. exists (Z.to_nat i). split; [lia|]. apply in_seq. lia. Qed.
Lemma in_claimed b x0 y0 p : In p (claimed b x0 y0) <-> x0 <= fst p < x0 + b_w b /\ y0 <= snd p < y0 + b_w b.
Proof.
  unfold claimed. rewrite in_flat_map. split.
  - intros (x & X & I). apply in_map_iff in I as (y & <- & Y). apply in_range0 in X, Y. cbn. lia.
  - intros [X Y]. exists (fst p - x0). split; [apply in_range0; lia|]. apply in_map_iff. exists (snd p - y0). split; [destruct p; cbn; f_equal; lia|apply in_range0; lia].
Qed.
Lemma nodup_range0 n : NoDup (range0 n).
Proof. unfold range0. apply Injective_map_NoDup; [intros a b E; lia|apply seq_NoDup]. Qed.
Lemma nodup_claimed b x0 y0 : NoDup (claimed b x0 y0).
Proof.
  unfold claimed.
  enough (G : forall l, NoDup l -> NoDup (flat_map (fun x => map (fun y => (x + x0, y + y0)) (range0 (b_w b))) l)) by exact (G _ (nodup_range0 _)).
  induction l as [|x l IH]; intros N; cbn [flat_map]; [constructor|].
  inversion N; subst. apply nodup_app; [|auto|].
  - apply Injective_map_NoDup; [intros a c E; injection E; lia|apply nodup_range0].
  - intros p I J. apply in_map_iff in I as (y & <- & _). apply in_flat_map in J as (x' & X' & J). apply in_map_iff in J as (y' & E & _). injection E as E _. assert (x = x') by lia. now subst.
Qed.

(** The sprites and the cache belong together. *)
Definition good (bs : nat -> building) (st : store) : Prop :=
  nth_error (fst st) 0 = Some None /\
  forall b tl sofs, dict_get Nat.eqb (snd st) b = Some (tl, sofs) -> exists sl, building_sprites (bs b) = Some (tl, sl) /\ 0 <= sofs
    /\ forall n q, nth_error sl n = Some q -> nth_error (fst st) (Z.to_nat sofs + n) = Some (Some q).
Definition grows (a b : store) : Prop := exists more, fst b = fst a ++ more.
Lemma grows_refl a : grows a a.
Proof. exists []. now rewrite app_nil_r. Qed.
Lemma grows_trans a b c : grows a b -> grows b c -> grows a c.
Proof. intros [m E] [n F]. exists (m ++ n). now rewrite F, E, app_assoc. Qed.
Lemma grows_nth a b n q : grows a b -> nth_error (fst a) n = Some q -> nth_error (fst b) n = Some q.
Proof. intros [m ->] H. rewrite nth_error_app1; [exact H|]. apply nth_error_Some. congruence. Qed.

Lemma dget_last {V} (l : list (nat * V)) k v x : dict_get Nat.eqb (l ++ [(k, v)]) x = match dict_get Nat.eqb l x with Some u => Some u | None => if (x =? k)%nat then Some v else None end.
Proof. induction l as [|[k' v'] l IH]; cbn [dict_get app]; [reflexivity|]. destruct (x =? k')%nat; [reflexivity|exact IH]. Qed.

Definition shift (x0 y0 : Z) (t : pos) : pos := (fst t + x0 - 1, snd t + y0 - 1).
(** What one placed building adds to the tiles. *)
Definition added (bs : nat -> building) (st : store) (e : Z * Z * nat) (A : list (pos * Z)) : Prop :=
  let '(x0, y0, b) := e in
  exists tl sl, building_sprites (bs b) = Some (tl, sl) /\ map fst A = map (fun a => shift x0 y0 (fst a)) tl
    /\ forall t n, In (t, n) tl -> exists m, In (shift x0 y0 t, m) A /\ 0 <= m /\ forall q, nth_error sl (Z.to_nat n) = Some q -> nth_error (fst st) (Z.to_nat m) = Some (Some q).
Lemma added_grows bs st st' e A : grows st st' -> added bs st e A -> added bs st' e A.
Proof.
  destruct e as [[x0 y0] b]. intros G (tl & sl & B & K & P). exists tl, sl. split; [exact B|]. split; [exact K|]. intros t n I.
  destruct (P t n I) as (m & M & M0 & Q). exists m. split; [exact M|]. split; [exact M0|]. intros q Hq. eapply grows_nth; eauto.
Qed.

Definition square (b : building) : Prop := 1 <= b_w b /\ b_h b = b_w b /\ 0 <= b_height b.

Lemma tiles_own b tl sl t n : 1 <= b_w b -> 1 <= b_h b -> 0 <= b_height b -> building_sprites b = Some (tl, sl) -> In (t, n) tl ->
  own_tile b t /\ 0 <= n < len sl /\ NoDup (map fst tl).
Proof.
  intros W H B E I. destruct (building_spec b W H B) as (st & es & E' & R & F & _). rewrite E in E'. apply some_inj in E'. subst st.
  destruct (rep_tile es _ t n R I) as (q & Q & N). cbn [snd] in N. split; [|split; [exact N|]].
  - apply nth_error_In in Q. destruct (F _ Q) as (p & P & Fp). exact (par_tile b p _ W H P Fp).
  - destruct R as (ND & T & _). cbn [fst] in T. rewrite T, combine_keys by (now rewrite !map_length, seq_length). exact ND.
Qed.
Lemma tiles_nodup b tl sl : 1 <= b_w b -> 1 <= b_h b -> 0 <= b_height b -> building_sprites b = Some (tl, sl) -> NoDup (map fst tl).
Proof.
  intros W H B E. destruct (building_spec b W H B) as (st & es & E' & R & F & _). rewrite E in E'. apply some_inj in E'. subst st.
  destruct R as (ND & T & _). cbn [fst] in T. rewrite T, combine_keys by (now rewrite !map_length, seq_length). exact ND.
Qed.

(** The tiles of a building extended to a layout, all keys new. *)
Lemma fold_tiles x0 y0 sofs tl : forall t0, NoDup (map fst tl) -> (forall a, In a tl -> ~ In (shift x0 y0 (fst a)) (map fst t0)) ->
  fold_left (fun (t : list (pos * Z)) (e : pos * Z) => let '((x, y), n) := e in dict_set pos_eqb t (x + x0 - 1, y + y0 - 1) (n + sofs)) tl t0
  = t0 ++ map (fun a => (shift x0 y0 (fst a), snd a + sofs)) tl.
Proof.
  induction tl as [|[[x y] n] tl IH]; intros t0 N D; cbn [fold_left map]; [now rewrite app_nil_r|]. inversion N as [|? ? N1 N2]; subst.
  rewrite dict_set_new by exact (D ((x, y), n) (or_introl eq_refl)). rewrite IH; [now rewrite <- app_assoc|exact N2|].
  intros a I J. rewrite map_app in J. apply in_app_or in J as [J | [J | []]]; [exact (D a (or_intror I) J)|]. cbn [fst] in J. unfold shift in J. injection J as J1 J2.
  apply N1. cbn [fst]. replace (x, y) with (fst a) by (destruct a as [[? ?] ?]; cbn in *; f_equal; lia). now apply in_map.
Qed.

Lemma place_spec bs st tiles occ e st' tiles' occ' : square (bs (snd e)) -> good bs st -> NoDup occ -> incl (map fst tiles) occ -> NoDup (map fst tiles) ->
  place bs st (tiles, occ) e = Some (st', (tiles', occ')) ->
  exists A, tiles' = tiles ++ A /\ occ' = occ ++ claimed (bs (snd e)) (fst (fst e)) (snd (fst e)) /\ NoDup occ' /\ incl (map fst tiles') occ' /\ NoDup (map fst tiles')
    /\ good bs st' /\ grows st st' /\ added bs st' e A.
Proof.
  destruct e as [[x0 y0] b]. cbn [fst snd]. intros (W & HW & HB) G N I NDT E. unfold place in E. cbn [fst snd] in E.
  match type of E with bind ?c _ = _ => set (c0 := c) in E; destruct c0 as [[[st1 tl] sofs]|] eqn:C0; subst c0; [cbn [bind] in E|discriminate] end.
  destruct (occupy _ occ) as [occ1|] eqn:O; [cbn [bind] in E|discriminate]. apply some_inj in E. apply pair_inj in E as [<- E]. apply pair_inj in E as [<- <-].
  destruct (occupy_spec _ _ _ O N) as [-> N'].
  assert (ST : good bs st1 /\ grows st st1 /\ exists sl, building_sprites (bs b) = Some (tl, sl) /\ 0 <= sofs
     /\ forall n q, nth_error sl n = Some q -> nth_error (fst st1) (Z.to_nat sofs + n) = Some (Some q)).
  { destruct (dict_get Nat.eqb (snd st) b) as [[tl0 so]|] eqn:D.
    - apply some_inj in C0. apply pair_inj in C0 as [C0 <-]. apply pair_inj in C0 as [<- <-]. split; [exact G|]. split; [apply grows_refl|]. destruct G as [_ G]. exact (G b tl0 so D).
    - destruct (building_sprites (bs b)) as [[tl0 sl]|] eqn:BS; [cbn [bind] in C0|discriminate]. apply some_inj in C0. apply pair_inj in C0 as [C0 <-]. apply pair_inj in C0 as [<- <-].
      assert (NT : forall n q, nth_error sl n = Some q -> nth_error (fst st ++ map Some sl) (Z.to_nat (len (fst st)) + n) = Some (Some q)).
      { intros n q Hn. unfold len. rewrite Nat2Z.id, nth_error_app2 by lia. replace (length (fst st) + n - length (fst st))%nat with n by lia. now apply map_nth_error. }
      split; [|split].
      + destruct G as [G0 G]. split; cbn [fst snd]; [rewrite nth_error_app1; [exact G0|]; apply nth_error_Some; congruence|].
        intros b' tl' so' H. rewrite dget_last in H. destruct (dict_get Nat.eqb (snd st) b') as [u|] eqn:U.
        * apply some_inj in H. subst u. destruct (G b' tl' so' U) as (sl' & B' & S' & P'). exists sl'. split; [exact B'|]. split; [exact S'|].
          intros n q Hn. specialize (P' n q Hn). rewrite nth_error_app1; [exact P'|]. apply nth_error_Some. congruence.
        * destruct (Nat.eqb_spec b' b) as [-> |]; [|discriminate]. apply some_inj in H. apply pair_inj in H as [<- <-]. exists sl. split; [exact BS|]. split; [unfold len; lia|exact NT].
      + exists (map Some sl). reflexivity.
      + exists sl. split; [reflexivity|]. split; [unfold len; lia|exact NT]. }
  destruct ST as (G1 & GR & sl & BS & SO & P).
  assert (OWN : forall a, In a tl -> In (shift x0 y0 (fst a)) (claimed (bs b) x0 y0)).
  { intros [t n] Ia. destruct (tiles_own (bs b) tl sl t n W ltac:(lia) HB BS Ia) as ([T1 T2] & _). apply in_claimed. unfold shift. cbn [fst snd]. lia. }
  pose proof (tiles_nodup (bs b) tl sl W ltac:(lia) HB BS) as NT.
  match goal with |- exists A, ?T = tiles ++ A /\ _ => assert (F : T = tiles ++ map (fun a => (shift x0 y0 (fst a), snd a + sofs)) tl) end.
  { apply fold_tiles; [exact NT|]. intros a Ia J. apply I in J. apply OWN in Ia. clear - N' J Ia. apply in_split in J as (l1 & l2 & ->).
    rewrite <- app_assoc in N'. cbn [app] in N'. apply NoDup_remove_2 in N'. apply N'. apply in_or_app. right. apply in_or_app. now right. }
  exists (map (fun a => (shift x0 y0 (fst a), snd a + sofs)) tl).
  split; [exact F|]. split; [reflexivity|]. split; [exact N'|]. split.
  { rewrite F. intros k K. rewrite map_app in K. apply in_app_or in K as [K | K]; apply in_or_app; [left; auto|right].
    rewrite map_map in K. cbn [fst] in K. apply in_map_iff in K as (a & <- & Ia). auto. }
  split.
  { rewrite F, map_app, map_map. cbn [fst]. apply nodup_app; [exact NDT| |].
    - rewrite <- map_map. apply Injective_map_NoDup; [|exact NT]. intros [a1 a2] [c1 c2] Q. unfold shift in Q. cbn in Q. injection Q as Q1 Q2. f_equal; lia.
    - intros k K J. apply I in K. apply in_map_iff in J as (a & <- & Ia). apply OWN in Ia. clear - N' K Ia. apply in_split in K as (l1 & l2 & ->).
      rewrite <- app_assoc in N'. cbn [app] in N'. apply NoDup_remove_2 in N'. apply N'. apply in_or_app. right. apply in_or_app. now right. }
  split; [exact G1|]. split; [exact GR|]. exists tl, sl. split; [exact BS|]. split; [now rewrite map_map|].
  intros t n Ia. exists (n + sofs). destruct (tiles_own (bs b) tl sl t n W ltac:(lia) HB BS Ia) as (_ & Bn & _).
  split; [apply in_map_iff; exists (t, n); split; [reflexivity|exact Ia]|]. split; [lia|].
  intros q Q. specialize (P _ _ Q). replace (Z.to_nat (n + sofs)) with (Z.to_nat sofs + Z.to_nat n)%nat by lia. exact P.
Qed.

Definition claims (bs : nat -> building) (l : list (Z * Z * nat)) : list pos :=
  flat_map (fun e => claimed (bs (snd e)) (fst (fst e)) (snd (fst e))) l.
Lemma place_all_spec bs : forall l st tiles occ st' tiles' occ', Forall (fun e => square (bs (snd e))) l -> good bs st -> NoDup occ -> incl (map fst tiles) occ -> NoDup (map fst tiles) ->
  place_all bs st (tiles, occ) l = Some (st', (tiles', occ')) ->
  exists As, tiles' = tiles ++ concat As /\ occ' = occ ++ claims bs l /\ NoDup occ' /\ incl (map fst tiles') occ' /\ NoDup (map fst tiles')
    /\ good bs st' /\ grows st st' /\ Forall2 (added bs st') l As.
Proof.
  induction l as [|e l IH]; intros st tiles occ st' tiles' occ' S G N I ND E; cbn [place_all] in E.
  - apply some_inj in E. apply pair_inj in E as [<- E]. apply pair_inj in E as [<- <-]. exists []. cbn. rewrite !app_nil_r. repeat split; auto; try apply G. apply grows_refl.
  - inversion S as [|? ? S1 S2]; subst. destruct (place bs st (tiles, occ) e) as [[st1 [t1 o1]]|] eqn:P; [cbn [bind] in E|discriminate].
    destruct (place_spec _ _ _ _ _ _ _ _ S1 G N I ND P) as (A & -> & -> & N1 & I1 & D1 & G1 & R1 & A1).
    destruct (IH _ _ _ _ _ _ S2 G1 N1 I1 D1 E) as (As & -> & -> & N2 & I2 & D2 & G2 & R2 & F2).
    exists (A :: As). cbn [concat claims flat_map]. rewrite !app_assoc. repeat split; auto; try apply G2.
    + eapply grows_trans; eauto.
    + constructor; [eapply added_grows; eauto|exact F2].
Qed.

Lemma layouts_spec bs : forall ls st st' r, Forall (Forall (fun e => square (bs (snd e)))) ls -> good bs st -> layouts bs st ls = Some (st', r) ->
  good bs st' /\ grows st st' /\ Forall2 (fun l x => exists As tiles, tiles = concat As /\ x = (switch_ranges tiles, claims bs l)
    /\ NoDup (claims bs l) /\ incl (map fst tiles) (claims bs l) /\ NoDup (map fst tiles) /\ Forall2 (added bs st') l As) ls r.
Proof.
  induction ls as [|l ls IH]; intros st st' r S G E; cbn [layouts] in E.
  - apply some_inj in E. apply pair_inj in E as [<- <-]. split; [exact G|]. split; [apply grows_refl|constructor].
  - inversion S as [|? ? S1 S2]; subst. destruct (place_all bs st ([], []) l) as [[st1 [tiles occ]]|] eqn:P; [cbn [bind] in E|discriminate].
    destruct (place_all_spec bs l st [] [] st1 tiles occ S1 G ltac:(constructor) ltac:(intros ? []) ltac:(constructor) P) as (As & T & O & N & I & ND & G1 & R1 & F). cbn [app] in T, O.
    destruct (layouts bs st1 ls) as [[st2 r2]|] eqn:L; [cbn [bind] in E|discriminate]. apply some_inj in E. apply pair_inj in E as [<- <-].
    destruct (IH _ _ _ S2 G1 L) as (G2 & R2 & F2). split; [exact G2|]. split; [eapply grows_trans; eauto|].
    constructor; [|exact F2]. exists As, tiles. subst occ. split; [exact T|]. split; [reflexivity|]. split; [exact N|]. split; [exact I|]. split; [exact ND|].
    clear - F R2. induction F; constructor; [eapply added_grows; eauto|auto].
Qed.

(** Keys of the switch. *)
Lemma key_value x y : 0 <= x < 256 -> Z.lor (Z.shiftl y 8) x = 256 * y + x.
Proof.
  intros X. rewrite Z.lor_comm, lor_shift by (change (2 ^ 8) with 256; lia). change (2 ^ 8) with 256. lia.
Qed.

Lemma dset_new {V} (l : list (Z * V)) k v : ~ In k (map fst l) -> dict_set Z.eqb l k v = l ++ [(k, v)].
Proof.
  induction l as [|[k' v'] l IH]; cbn [dict_set map fst app]; intros H; [reflexivity|].
  destruct (Z.eqb_spec k k') as [-> |]; [exfalso; apply H; now left|]. rewrite IH by (intros I; apply H; now right). reflexivity.
Qed.
Definition key (p : pos) : Z := 256 * snd p + fst p.
Lemma switch_ranges_spec tiles : NoDup (map fst tiles) -> (forall k, In k (map fst tiles) -> 0 <= fst k < 256) ->
  switch_ranges tiles = map (fun a => (key (fst a), snd a)) tiles /\ NoDup (map fst (switch_ranges tiles)).
Proof.
  intros N B. unfold switch_ranges.
  assert (G : forall l d, NoDup (map fst l) -> (forall k, In k (map fst l) -> 0 <= fst k < 256) -> NoDup (map fst d) -> (forall a, In a l -> ~ In (key (fst a)) (map fst d)) ->
     fold_left (fun (d : list (Z * Z)) (e : pos * Z) => let '((x, y), n) := e in dict_set Z.eqb d (Z.lor (Z.shiftl y 8) x) n) l d = d ++ map (fun a => (key (fst a), snd a)) l
     /\ NoDup (map fst (d ++ map (fun a => (key (fst a), snd a)) l))).
  { clear. induction l as [|[[x y] n] l IH]; intros d N B Nd D; cbn [fold_left map]; [rewrite app_nil_r; auto|]. inversion N as [|? ? N1 N2]; subst.
    specialize (B (x, y) (or_introl eq_refl)) as Bx. cbn [fst] in Bx. rewrite key_value by exact Bx. pose proof (D ((x, y), n) (or_introl eq_refl)) as D0. unfold key in D0 at 1. cbn [fst snd] in D0.
    rewrite dset_new by exact D0. destruct (IH (d ++ [(256 * y + x, n)])) as [E1 E2].
    - exact N2.
    - intros k K. apply B. now right.
    - rewrite map_app. apply nodup_snoc; assumption.
    - intros a I J. rewrite map_app in J. apply in_app_or in J as [J | [J | []]]; [exact (D a (or_intror I) J)|]. cbn [fst] in J.
      assert (Ba : 0 <= fst (fst a) < 256) by (apply B; right; now apply in_map). unfold key in J. apply N1. replace (x, y) with (fst a); [now apply in_map|].
      destruct a as [[ax ay] am]. cbn [fst snd] in *. f_equal; lia.
    - rewrite <- app_assoc in E1, E2. cbn [app] in E1, E2. unfold key at 1 3. cbn [fst snd]. auto. }
  destruct (G tiles [] N B ltac:(constructor) ltac:(intros a _ [])) as [E1 E2]. cbn [app] in E1, E2.
  assert (X : switch_ranges tiles = map (fun a => (key (fst a), snd a)) tiles) by exact E1. unfold switch_ranges in X. rewrite X. auto.
Qed.
Lemma nodup_flat {A B} (f : A -> list B) : forall l i j a c x, NoDup (flat_map f l) -> nth_error l i = Some a -> nth_error l j = Some c -> In x (f a) -> In x (f c) -> i = j.
Proof.
  induction l as [|u l IH]; intros [|i] [|j] a c x N Hi Hj Ia Ic; cbn in Hi, Hj; try discriminate; [reflexivity| | |].
  - apply some_inj in Hi. subst u. cbn [flat_map] in N. exfalso. apply nth_error_In in Hj. assert (In x (flat_map f l)) as X by (apply in_flat_map; eauto).
    apply in_split in Ia as (l1 & l2 & E). rewrite E in N. rewrite <- app_assoc in N. cbn [app] in N. apply NoDup_remove_2 in N. apply N. rewrite !in_app_iff. auto.
  - apply some_inj in Hj. subst u. cbn [flat_map] in N. exfalso. apply nth_error_In in Hi. assert (In x (flat_map f l)) as X by (apply in_flat_map; eauto).
    apply in_split in Ic as (l1 & l2 & E). rewrite E in N. rewrite <- app_assoc in N. cbn [app] in N. apply NoDup_remove_2 in N. apply N. rewrite !in_app_iff. auto.
  - f_equal. cbn [flat_map] in N. eapply IH; eauto. clear - N. induction (f u) as [|v r IHr]; [exact N|]. cbn [app] in N. inversion N; auto.
Qed.
Lemma forall2_nth {A B} (P : A -> B -> Prop) l r : Forall2 P l r -> forall i a, nth_error l i = Some a -> exists c, nth_error r i = Some c /\ P a c.
Proof. intros F. induction F as [|x y l r H F IH]; intros [|i] a E; cbn in *; try discriminate; [apply some_inj in E; subst; eauto|auto]. Qed.
Lemma forall2_nth2 {A B} (P : A -> B -> Prop) l r : Forall2 P l r -> forall i c, nth_error r i = Some c -> exists a, nth_error l i = Some a /\ P a c.
Proof. intros F. induction F as [|x y l r H F IH]; intros [|i] a E; cbn in *; try discriminate; [apply some_inj in E; subst; eauto|auto]. Qed.
Lemma in_concat_nth {A} (x : A) ls : In x (concat ls) -> exists i l, nth_error ls i = Some l /\ In x l.
Proof. intros H. apply in_concat in H as (l & L & X). apply In_nth_error in L as [i L]. eauto. Qed.
