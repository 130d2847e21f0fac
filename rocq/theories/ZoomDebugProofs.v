(** Proofs for C72 and C73. *)
From Coq Require Import ZArith List Bool Lia.
From Verif Require Import Base BaseFacts SpriteModel ZoomDebugModel SpecZoomDebug.
Import ListNotations.
Open Scope Z_scope.

Lemma map_opt_length {A B} (f : A -> option B) l m : map_opt f l = Some m -> List.length m = List.length l.
Proof.
  revert m. induction l as [|a l IH]; intros m H; cbn [map_opt] in H; [apply some_inj in H; subst; reflexivity|].
  apply bind_some in H as (b & E & H). apply bind_some in H as (bs & F & H). apply some_inj in H. subst m. cbn. now rewrite (IH _ F).
Qed.
Lemma map_opt_nth {A B} (f : A -> option B) l m : map_opt f l = Some m -> forall n,
  nth_error m n = match nth_error l n with Some a => f a | None => None end.
Proof.
  revert m. induction l as [|a l IH]; intros m H n; cbn [map_opt] in H; [apply some_inj in H; subst; destruct n; reflexivity|].
  apply bind_some in H as (b & E & H). apply bind_some in H as (bs & F & H). apply some_inj in H. subst m. destruct n; [cbn [nth_error]; now rewrite E|cbn [nth_error]; apply IH, F].
Qed.
Lemma map_opt_total {A B} (f : A -> option B) l : Forall (fun a => f a <> None) l -> exists m, map_opt f l = Some m.
Proof.
  induction 1 as [|a l H F (m & IH)]; [exists []; reflexivity|]. cbn [map_opt]. destruct (f a) as [b|]; [|contradiction]. exists (b :: m). cbn [bind]. rewrite IH. reflexivity.
Qed.

(** ** Tables *)
Definition tables_ok (best : Z -> list Z) (st : list (Z * table)) : Prop :=
  forall zoom t, get zoom st = Some t -> t = mk_table 1 (0 :: best zoom) /\ is_zoom zoom.
Lemma get_zoom zoom : is_zoom zoom -> exists c, get zoom ZOOM_DEBUG_COLOURS = Some c.
Proof.
  intros H. unfold is_zoom in H. assert (C : zoom = 0 \/ zoom = 1 \/ zoom = 2 \/ zoom = 3 \/ zoom = 4 \/ zoom = 5) by lia.
  destruct C as [-> | [-> | [-> | [-> | [-> | ->]]]]]; eexists; reflexivity.
Qed.
Lemma zoom_get zoom c : get zoom ZOOM_DEBUG_COLOURS = Some c -> is_zoom zoom.
Proof.
  unfold is_zoom, ZOOM_DEBUG_COLOURS. cbn [get].
  repeat match goal with |- (if ?a =? ?b then _ else _) = _ -> _ => destruct (Z.eqb_spec a b); [intros _; lia|] end. discriminate.
Qed.
Lemma recolour_ok best zoom st t st' : tables_ok best st -> get_debug_recolour best zoom st = Some (t, st') ->
  t_colours t = 0 :: best zoom /\ tables_ok best st' /\ is_zoom zoom.
Proof.
  intros O H. unfold get_debug_recolour in H. destruct (get zoom st) as [u|] eqn:G.
  - apply some_inj in H. apply pair_inj in H as [<- <-]. destruct (O _ _ G) as [-> Z0]. auto.
  - apply bind_some in H as (c & C & H). apply some_inj in H. apply pair_inj in H as [<- <-]. split; [reflexivity|]. split; [|exact (zoom_get _ _ C)].
    intros z u. cbn [get]. destruct (Z.eqb_spec z zoom) as [->|N]; [intros E; apply some_inj in E; subst u; split; [reflexivity|exact (zoom_get _ _ C)]|apply O].
Qed.
Lemma tables_nil best : tables_ok best []. Proof. intros z t H. discriminate H. Qed.

(** ** Pixels *)
Lemma tint_spec zoom c r g b : get zoom ZOOM_DEBUG_COLOURS = Some c -> is_byte r -> is_byte g -> is_byte b ->
  tint_px c [r; g; b] = let '(r', g', b') := tint zoom (r, g, b) in [r'; g'; b'].
Proof.
  intros H R G B. pose proof (zoom_get _ _ H) as Z0. unfold is_zoom in Z0. unfold is_byte in *.
  assert (C : zoom = 0 \/ zoom = 1 \/ zoom = 2 \/ zoom = 3 \/ zoom = 4 \/ zoom = 5) by lia.
  destruct C as [-> | [-> | [-> | [-> | [-> | ->]]]]]; cbn [get ZOOM_DEBUG_COLOURS Z.eqb Pos.eqb] in H; apply some_inj in H; subst c; unfold tint_px, tint; cbn [combine map fst snd Z.eqb Pos.eqb];
    rewrite ?Z.mul_0_r, ?Z.mul_1_r, ?Z.mod_0_l, ?Z.mod_small by lia; reflexivity.
Qed.
Lemma pixel_map f l x y : pixel (map (map f) l) x y = option_map f (pixel l x y).
Proof.
  unfold pixel. rewrite nth_error_map. destruct (nth_error l y) as [row|]; [|reflexivity]. cbn [option_map]. apply nth_error_map.
Qed.
Lemma pixel_map_opt f l m x y : map_opt (map_opt f) l = Some m -> pixel m x y = match pixel l x y with Some p => f p | None => None end.
Proof.
  intros H. unfold pixel. rewrite (map_opt_nth _ _ _ H). destruct (nth_error l y) as [row|] eqn:E; [|reflexivity].
  assert (G : exists row', map_opt f row = Some row').
  { pose proof (map_opt_nth _ _ _ H y) as N. rewrite E in N. destruct (map_opt f row) as [row'|]; [eauto|]. apply nth_error_None in N. rewrite (map_opt_length _ _ _ H) in N.
    assert (A : nth_error l y <> None) by congruence. apply nth_error_Some in A. lia. }
  destruct G as [row' G]. rewrite G. rewrite (map_opt_nth _ _ _ G). reflexivity.
Qed.

(** ** The sprite map *)
Lemma object_eqb_eq a b : object_eqb a b = true <-> a = b.
Proof.
  destruct a as [i|p i], b as [j|q j]; cbn [object_eqb]; split; intros H; try discriminate; try congruence.
  - apply Nat.eqb_eq in H. congruence.
  - injection H as ->. apply Nat.eqb_refl.
  - apply andb_prop in H as [A B]. apply Nat.eqb_eq in A, B. congruence.
  - injection H as -> ->. now rewrite !Nat.eqb_refl.
Qed.
Lemma find_self o : forall m, (forall k v, In (k, v) m -> k = v) -> In (o, o) m -> find_object o m = Some o.
Proof.
  induction m as [|[k v] m IH]; intros S I; [destruct I|]. cbn [find_object]. destruct (object_eqb o k) eqn:E.
  - apply object_eqb_eq in E. subst k. now rewrite (S o v (or_introl eq_refl)).
  - apply IH; [intros k' v' J; apply S; right; exact J|]. destruct I as [I|I]; [|exact I]. injection I as -> ->. assert (object_eqb o o = true) by now apply object_eqb_eq. congruence.
Qed.
Lemma find_none o : forall m, (forall v, ~ In (o, v) m) -> find_object o m = None.
Proof.
  induction m as [|[k v] m IH]; intros N; [reflexivity|]. cbn [find_object]. destruct (object_eqb o k) eqn:E.
  - apply object_eqb_eq in E. subst k. destruct (N v (or_introl eq_refl)).
  - apply IH. intros v' J. apply (N v'). right. exact J.
Qed.
Lemma map_from debug is_sprite : forall l place m k v, In (k, v) (sprite_map_from debug is_sprite place l m) ->
  In (k, v) m \/ (k = v /\ exists i, In i l /\ ((is_sprite i && debug = true /\ exists p, k = Wrapper p i) \/ (is_sprite i && debug = false /\ k = Given i))).
Proof.
  induction l as [|i l IH]; intros place m k v I; cbn [sprite_map_from] in I; [auto|].
  apply IH in I as [I|(E & j & J & C)].
  - destruct I as [I|I]; [|auto]. right. destruct (is_sprite i && debug) eqn:D; injection I as <- <-; (split; [reflexivity|]); exists i; (split; [left; reflexivity|]); [left|right]; eauto.
  - right. split; [exact E|]. exists j. split; [right; exact J|exact C].
Qed.
Lemma from_map debug is_sprite : forall l place m k v, In (k, v) m -> In (k, v) (sprite_map_from debug is_sprite place l m).
Proof. induction l as [|i l IH]; intros place m k v I; cbn [sprite_map_from]; [exact I|]. apply IH. right. exact I. Qed.
Lemma given_in debug is_sprite i : is_sprite i && debug = false -> forall l place m, In i l -> In (Given i, Given i) (sprite_map_from debug is_sprite place l m).
Proof.
  intros D. induction l as [|j l IH]; intros place m I; [destruct I|]. cbn [sprite_map_from]. destruct I as [->|I]; [|apply IH, I]. rewrite D. apply from_map. left. reflexivity.
Qed.
Lemma map_self debug is_sprite l k v : In (k, v) (sprite_map debug is_sprite l) -> k = v.
Proof. intros I. apply map_from in I as [[]|[E _]]. exact E. Qed.
Lemma find_given debug is_sprite l i : In i l -> is_sprite i && debug = false -> find_object (Given i) (sprite_map debug is_sprite l) = Some (Given i).
Proof. intros I D. apply find_self; [intros k v; apply map_self|]. apply given_in; assumption. Qed.
Lemma find_wrapped debug is_sprite l i : is_sprite i && debug = true -> find_object (Given i) (sprite_map debug is_sprite l) = None.
Proof.
  intros D. apply find_none. intros v I. apply map_from in I as [[]|[_ (j & _ & [[_ [p E]] | [F E]])]]; [discriminate|]. injection E as <-. congruence.
Qed.
Lemma prepared_total is_sprite m : forall l, (forall i, In i l -> is_sprite i = true -> find_object (Given i) m = Some (Given i)) -> prepared is_sprite l m = Some (map Given (filter is_sprite l)).
Proof.
  induction l as [|i l IH]; intros H; [reflexivity|]. cbn [prepared filter]. destruct (is_sprite i) eqn:S.
  - rewrite (H i (or_introl eq_refl) S). cbn [bind]. rewrite IH by (intros; apply H; [right|]; assumption). reflexivity.
  - apply IH. intros; apply H; [right|]; assumption.
Qed.
Lemma prepared_none is_sprite m i : is_sprite i = true -> find_object (Given i) m = None -> forall l, In i l -> prepared is_sprite l m = None.
Proof.
  intros S N. induction l as [|j l IH]; intros I; [destruct I|]. cbn [prepared]. destruct I as [->|I].
  - rewrite S, N. reflexivity.
  - destruct (is_sprite j); [|apply IH, I]. destruct (find_object (Given j) m); [|reflexivity]. cbn [bind]. rewrite IH by exact I. reflexivity.
Qed.

(** ** Alternatives *)
Lemma bpp_eqb_eq a b : bpp_eqb a b = true <-> a = b.
Proof. destruct a, b; cbn; split; intros H; try discriminate; try reflexivity; [apply Z.eqb_eq in H; congruence|injection H as ->; apply Z.eqb_refl]. Qed.
Lemma alt_eqb_eq a b : alt_eqb a b = true <-> a = b.
Proof.
  destruct a as [z p], b as [y q]. unfold alt_eqb. cbn [alt_zoom alt_bpp]. split; intros H.
  - apply andb_prop in H as [A B]. apply Z.eqb_eq in A. apply bpp_eqb_eq in B. congruence.
  - injection H as -> ->. rewrite Z.eqb_refl. cbn [andb]. now apply bpp_eqb_eq.
Qed.
Lemma distinct_le l : distinct_count l <= len l.
Proof. unfold len. induction l as [|a l IH]; [cbn; lia|]. cbn [distinct_count List.length]. destruct (existsb _ _); lia. Qed.
Lemma distinct_nodup l : distinct_count l = len l <-> NoDup l.
Proof.
  unfold len. induction l as [|a l IH]; [split; [constructor|reflexivity]|]. cbn [distinct_count List.length]. pose proof (distinct_le l) as L. unfold len in L.
  destruct (existsb (alt_eqb a) l) eqn:E.
  - split; [lia|]. intros N. inversion N as [|? ? I _]; subst. apply existsb_exists in E as (b & J & E). apply alt_eqb_eq in E. subst b. contradiction.
  - split.
    + intros H. constructor; [|apply IH; lia]. intros I. assert (X : existsb (alt_eqb a) l = true) by (apply existsb_exists; exists a; split; [exact I|now apply alt_eqb_eq]). congruence.
    + intros N. inversion N as [|? ? _ N']; subst. apply IH in N'. lia.
Qed.
Lemma get_sprite_spec z b : forall l n, get_sprite z b l = Some n <->
  (exists s, nth_error l n = Some s /\ alt_match z b s = true) /\ forall m s, (m < n)%nat -> nth_error l m = Some s -> alt_match z b s = false.
Proof.
  induction l as [|a l IH]; intros n; cbn [get_sprite].
  - split; [discriminate|]. intros [(s & E & _) _]. destruct n; discriminate.
  - destruct (alt_match z b a) eqn:A.
    + split.
      * intros E. apply some_inj in E. subst n. split; [exists a; split; [reflexivity|exact A]|lia].
      * intros [_ H]. destruct n as [|n]; [reflexivity|]. specialize (H O a ltac:(lia) eq_refl). congruence.
    + destruct (get_sprite z b l) as [k|] eqn:G; cbn [option_map].
      * split.
        -- intros E. apply some_inj in E. subst n. destruct (proj1 (IH k) eq_refl) as [X Y]. split; [exact X|]. intros [|m] s L E; [apply some_inj in E; congruence|]. apply (Y m s); [lia|exact E].
        -- intros [(s & E & M) H]. destruct n as [|n]; [apply some_inj in E; congruence|]. f_equal. f_equal.
           assert (Q : Some k = Some n) by (apply IH; split; [exists s; auto|intros m t L T; apply (H (Datatypes.S m) t); [lia|exact T]]). now apply some_inj in Q.
      * split; [discriminate|]. intros [(s & E & M) H]. destruct n as [|n]; [apply some_inj in E; congruence|].
        assert (Q : None = Some n) by (apply IH; split; [exists s; auto|intros m t L T; apply (H (Datatypes.S m) t); [lia|exact T]]). discriminate Q.
Qed.
