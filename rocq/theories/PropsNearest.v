(** Property C87: nearest colours and recolourings. *)
From Coq Require Import ZArith List Bool Lia.
From Verif Require Import Base BaseFacts TreeModel PaletteProofs NearestModel.
Import ListNotations.
Open Scope Z_scope.

(** ---- specification ---- *)

Definition game_colour (palette : list colour) (i : Z) (c : colour) : Prop := 0 <= i /\ nth_error palette (Z.to_nat i) = Some c.
(** The square of the distance of two colours. *)
Definition far (c d : colour) : Z := (fst (fst c) - fst (fst d)) ^ 2 + (snd (fst c) - snd (fst d)) ^ 2 + (snd c - snd d) ^ 2.
(** [i] is the first of the nearest colours to [x] in the range. *)
Definition nearest (palette : list colour) (in_range : list Z) (x : colour) (i : Z) : Prop :=
  exists before after c, in_range = before ++ i :: after /\ game_colour palette i c /\
    (forall j d, In j before -> game_colour palette j d -> far c x < far d x) /\
    (forall j d, In j after -> game_colour palette j d -> far c x <= far d x).
(** The colours every palette of the game has, without the animated ones. *)
Definition safe (i : Z) : Prop := 1 <= i <= 214 \/ i = 255.

(** ---- proofs ---- *)

Lemma distance_far c d : distance c d = far c d.
Proof. destruct c as [[c1 c2] c3], d as [[d1 d2] d3]. unfold distance, far. cbn [fst snd]. lia. Qed.

Lemma argmin_from_spec : forall l best least i, (best < i)%nat ->
  let k := argmin_from best least i l in
  (k = best /\ forall y, In y l -> least <= y) \/
  (exists before x after, l = before ++ x :: after /\ k = (i + length before)%nat /\ x < least /\
     (forall y, In y before -> x < y) /\ forall y, In y after -> x <= y).
Proof.
  induction l as [|x l IH]; intros best least i L; cbn [argmin_from]; [left; split; [reflexivity|intros y []]|].
  destruct (Z.ltb_spec x least) as [X | X].
  - right. destruct (IH i x (S i) ltac:(lia)) as [[E A] | (b & y & a & -> & E & X2 & B & A)].
    + exists [], x, l. cbn [app length]. split; [reflexivity|]. split; [rewrite E; lia|]. split; [exact X|]. split; [intros y []|exact A].
    + exists (x :: b), y, a. split; [reflexivity|]. split; [cbn [length]; rewrite E; lia|]. split; [lia|]. split; [intros z [<- | Z0]; auto|exact A].
  - destruct (IH best least (S i) ltac:(lia)) as [[E A] | (b & y & a & -> & E & X2 & B & A)].
    + left. split; [exact E|]. intros y [<- | Y]; auto.
    + right. exists (x :: b), y, a. split; [reflexivity|]. split; [cbn [length]; rewrite E; lia|]. split; [exact X2|]. split; [|exact A].
      intros z [<- | Z0]; [lia|auto].
Qed.
Lemma argmin_spec : forall l k, argmin l = Some k -> exists before x after, l = before ++ x :: after /\ k = length before /\
  (forall y, In y before -> x < y) /\ forall y, In y after -> x <= y.
Proof.
  intros [|x l] k E; [discriminate|]. apply some_inj in E. destruct (argmin_from_spec l 0 x 1 ltac:(lia)) as [[E2 A] | (b & y & a & -> & E2 & X & B & A)]; cbv zeta in E2; rewrite E in E2.
  - exists [], x, l. split; [reflexivity|]. split; [exact E2|]. split; [intros y []|exact A].
  - exists (x :: b), y, a. split; [reflexivity|]. split; [exact E2|]. split; [intros z [<- | Z0]; [lia|auto]|exact A].
Qed.

Lemma take_spec palette : forall r cs, take palette r = Some cs -> Forall2 (game_colour palette) r cs.
Proof.
  induction r as [|i r IH]; cbn [take]; intros cs E; [apply some_inj in E; subst; constructor|].
  destruct (Z.leb_spec 0 i) as [P|]; [|discriminate]. destruct (nth_error palette (Z.to_nat i)) as [c|] eqn:N; [cbn [bind] in E|discriminate].
  destruct (take palette r) as [cs'|]; [cbn [bind] in E|discriminate]. apply some_inj in E. subst cs. constructor; [split; assumption|auto].
Qed.
Lemma take_total palette r : (forall i, In i r -> 0 <= i < len palette) -> exists cs, take palette r = Some cs.
Proof.
  induction r as [|i r IH]; intros H; cbn [take]; [eauto|]. pose proof (H i (or_introl eq_refl)) as B. replace (0 <=? i) with true by lia.
  destruct (nth_error palette (Z.to_nat i)) as [c|] eqn:N; [|apply nth_error_None in N; unfold len in B; lia]. cbn [bind].
  destruct IH as [cs ->]; [intros j J; apply H; now right|]. cbn [bind]. eauto.
Qed.
Lemma game_colour_fun palette i c d : game_colour palette i c -> game_colour palette i d -> c = d.
Proof. intros [_ A] [_ B]. congruence. Qed.

Lemma map_split {A B} (f : A -> B) : forall l before x after, map f l = before ++ x :: after ->
  exists b a r, l = b ++ a :: r /\ map f b = before /\ f a = x /\ map f r = after.
Proof.
  induction l as [|y l IH]; intros before x after E; [destruct before; discriminate|]. destruct before as [|z before]; cbn [map app] in E; injection E as E1 E2.
  - exists [], y, l. auto.
  - destruct (IH _ _ _ E2) as (b & a & r & -> & M1 & M2 & M3). exists (y :: b), a, r. cbn. split; [reflexivity|]. split; [congruence|auto].
Qed.

Lemma F2len {A B} (P : A -> B -> Prop) l m : Forall2 P l m -> length l = length m.
Proof. induction 1; cbn [length]; congruence. Qed.
Lemma find_best_nearest palette x r i : find_best palette x r = Some i -> nearest palette r x i.
Proof.
  unfold find_best. intros E. destruct (take palette r) as [cs|] eqn:T; [cbn [bind] in E|discriminate]. apply take_spec in T.
  destruct (argmin _) as [k|] eqn:A; [cbn [bind] in E|discriminate]. apply argmin_spec in A as (b & v & a & M & -> & LT & LE).
  apply map_split in M as (cb & c & ca & -> & <- & <- & <-). rewrite map_length in E.
  apply Forall2_app_inv_r in T as (rb & rr & T1 & T2 & ->). inversion T2 as [|i' ? ra ? G T3]; subst.
  rewrite nth_error_app2 in E by (apply F2len in T1; lia). replace (length cb - length rb)%nat with 0%nat in E by (apply F2len in T1; lia).
  cbn in E. apply some_inj in E. subst i'. exists rb, ra, c. split; [reflexivity|]. split; [exact G|].
  assert (Q : forall rs ds (P : Z -> Prop), Forall2 (game_colour palette) rs ds -> (forall y, In y (map (fun c => distance c x) ds) -> P y) ->
    forall j d, In j rs -> game_colour palette j d -> P (distance d x)).
  { clear. induction 1 as [|j d rs ds G F IH]; cbn [map]; intros H j' d' I G'; [destruct I|]. destruct I as [<- | I].
    - rewrite (game_colour_fun palette j d' d G' G). apply H. now left.
    - apply (IH (fun y Y => H y (or_intror Y)) j' d' I G'). }
  split; intros j d J G'; rewrite <- !distance_far.
  - exact (Q rb cb (fun y => distance c x < y) T1 LT j d J G').
  - exact (Q ra ca (fun y => distance c x <= y) T3 LE j d J G').
Qed.

(** C87: the colour found is in the range and no colour of the range is
    nearer; of several nearest ones it is the first. *)
Theorem C87_nearest : forall palette x r i, find_best palette x r = Some i -> nearest palette r x i.
Proof. exact find_best_nearest. Qed.

(** A colour is found in every range of colours that is not empty, and none in
    the empty range. *)
Theorem C87_total : forall palette x r, (forall i, In i r -> 0 <= i < len palette) ->
  (r <> [] -> exists i, find_best palette x r = Some i) /\ (r = [] -> find_best palette x r = None).
Proof.
  intros palette x r H. split; [|intros ->; reflexivity]. intros NE. unfold find_best. destruct (take_total palette r H) as [cs T]. rewrite T. cbn [bind].
  apply take_spec, F2len in T. destruct cs as [|c cs]; [destruct r; [congruence|discriminate]|]. cbn [map].
  destruct (argmin (distance c x :: map (fun c => distance c x) cs)) as [k|] eqn:A; [|discriminate]. cbn [bind].
  apply argmin_spec in A as (b & v & a & M & -> & _ & _). destruct (nth_error r (length b)) as [i|] eqn:N; [eauto|].
  apply nth_error_None in N. apply (f_equal (@length Z)) in M. rewrite app_length in M. cbn [length] in M. rewrite map_length in M. cbn [length] in T. lia.
Qed.

Lemma distance_sym a b : distance a b = distance b a.
Proof. destruct a as [[a1 a2] a3], b as [[b1 b2] b3]. unfold distance. lia. Qed.
(** An array of colours gives what its colours give one by one. *)
Theorem C87_array : forall palette xs r is, r <> [] ->
  find_best_all palette xs r = Some is -> Forall2 (fun x i => find_best palette x r = Some i) xs is.
Proof.
  intros palette xs r is NE E. unfold find_best_all in E. destruct (take palette r) as [cs|] eqn:T; [cbn [bind] in E|discriminate].
  revert is E. induction xs as [|x xs IH]; intros is E; cbn [map argmins bind] in E.
  - cbn in E. apply some_inj in E. subst. constructor.
  - destruct (argmin (map (fun c => distance x c) cs)) as [k|] eqn:A; [cbn [bind] in E|discriminate].
    destruct (argmins _) as [ks|]; [cbn [bind pick] in E|discriminate]. destruct (nth_error r k) as [i|] eqn:N; [cbn [bind] in E|discriminate].
    destruct (pick r ks) as [is'|] eqn:PK; [cbn [bind] in E|discriminate]. apply some_inj in E. subst is. constructor; [|apply IH; cbn [bind]; exact PK].
    unfold find_best. rewrite T. cbn [bind]. replace (map (fun c => distance c x) cs) with (map (fun c => distance x c) cs) by (apply map_ext; intros; apply distance_sym).
    rewrite A. exact N.
Qed.

(** A colour the game has is found exactly. *)
Theorem C87_exact : forall palette r i j x, In j r -> game_colour palette j x -> find_best palette x r = Some i -> game_colour palette i x.
Proof.
  intros palette r i j x J G E. apply find_best_nearest in E as (b & a & c & -> & Gi & LT & LE).
  assert (LT' : forall j d, In j b -> game_colour palette j d -> distance c x < distance d x) by (intros; rewrite !distance_far; eauto).
  assert (LE' : forall j d, In j a -> game_colour palette j d -> distance c x <= distance d x) by (intros; rewrite !distance_far; eauto).
  clear LT LE. rename LT' into LT. rename LE' into LE.
  assert (D : distance x x = 0) by (destruct x as [[x1 x2] x3]; unfold distance; rewrite !Z.sub_diag; reflexivity).
  assert (P : forall a b, 0 <= distance a b). { intros [[a1 a2] a3] [[b1 b2] b3]. unfold distance. pose proof (Z.square_nonneg (a1 - b1)). pose proof (Z.square_nonneg (a2 - b2)). pose proof (Z.square_nonneg (a3 - b3)). lia. }
  assert (E0 : distance c x = 0).
  { pose proof (P c x). apply in_app_or in J as [J | [<- | J]].
    - specialize (LT j x J G). lia.
    - rewrite (game_colour_fun _ _ _ _ Gi G). exact D.
    - specialize (LE j x J G). lia. }
  assert (c = x) as <-. { destruct c as [[c1 c2] c3], x as [[x1 x2] x3]. unfold distance in E0. pose proof (Z.square_nonneg (c1 - x1)). pose proof (Z.square_nonneg (c2 - x2)). pose proof (Z.square_nonneg (c3 - x3)).
    assert (Z0 : forall a, a * a = 0 -> a = 0) by (intros z A; apply Z.mul_eq_0 in A; tauto).
    assert (c1 - x1 = 0) by (apply Z0; lia). assert (c2 - x2 = 0) by (apply Z0; lia). assert (c3 - x3 = 0) by (apply Z0; lia). f_equal; [f_equal|]; lia. }
  exact Gi.
Qed.

Lemma safe_in i : In i SAFE_COLOURS <-> safe i.
Proof.
  unfold SAFE_COLOURS, safe. rewrite in_app_iff, in_map_iff. cbn [In]. split.
  - intros [(k & <- & K) | [<- | []]]; [apply in_seq in K; lia|lia].
  - intros [B | ->]; [left; exists (Z.to_nat i); split; [lia|apply in_seq; lia]|auto].
Qed.
Lemma remap_set_get i v t t' : remap_set i v t = Some t' -> length t' = length t /\ 0 <= i < len t /\
  forall j, 0 <= j -> nth (Z.to_nat j) t' 0 = if j =? i then v else nth (Z.to_nat j) t 0.
Proof.
  unfold remap_set. intros E. destruct ((0 <=? i) && (i <? len t) && byteb v)%bool eqn:C; [|discriminate]. apply some_inj in E. subst t'.
  apply andb_prop in C as [C _]. apply andb_prop in C as [C1 C2]. unfold len in *. split; [apply set_nth_length|]. split; [lia|].
  intros j J. rewrite set_nth_nth by lia. destruct (Z.eqb_spec j i) as [-> |]; [now rewrite Nat.eqb_refl|]. destruct (Nat.eqb_spec (Z.to_nat j) (Z.to_nat i)); [lia|reflexivity].
Qed.
Lemma from_function_spec palette f : forall r t t', from_function palette f r t = Some t' ->
  length t' = length t /\ (forall j, 0 <= j -> ~ In j r -> nth (Z.to_nat j) t' 0 = nth (Z.to_nat j) t 0) /\
  (forall j, In j r -> exists c, game_colour palette j c /\ find_best palette (f c) SAFE_COLOURS = Some (nth (Z.to_nat j) t' 0)).
Proof.
  induction r as [|i r IH]; cbn [from_function]; intros t t' E; [apply some_inj in E; subst; split; [reflexivity|]; split; [auto|intros j []]|].
  destruct (Z.leb_spec 0 i) as [P|]; [|discriminate]. destruct (nth_error palette (Z.to_nat i)) as [c|] eqn:N; [cbn [bind] in E|discriminate].
  destruct (find_best palette (f c) SAFE_COLOURS) as [b|] eqn:B; [cbn [bind] in E|discriminate]. destruct (remap_set i b t) as [t1|] eqn:S; [cbn [bind] in E|discriminate].
  apply remap_set_get in S as (L & R & G). destruct (IH t1 t' E) as (L' & O & I). split; [congruence|]. split.
  - intros j J NI. rewrite O by (auto; intros X; apply NI; now right). rewrite (G j J). destruct (Z.eqb_spec j i) as [-> |]; [exfalso; apply NI; now left|reflexivity].
  - intros j [<- | J]; [|exact (I j J)]. destruct (in_dec Z.eq_dec i r) as [J | J]; [exact (I i J)|]. exists c. split; [split; assumption|].
    rewrite O by assumption. rewrite (G i P), Z.eqb_refl. exact B.
Qed.

(** oklab_from_function: every index of the range is replaced by the safe
    colour nearest to what the function makes of its colour, every other index
    stays what it is; all 256 indices are there. *)
Theorem C87_recolour : forall palette f r t, oklab_from_function palette f r = Some t ->
  length t = 256%nat /\
  (forall j, 0 <= j < 256 -> ~ In j r -> nth (Z.to_nat j) t 0 = j) /\
  (forall j, In j r -> exists c, game_colour palette j c /\ nearest palette SAFE_COLOURS (f c) (nth (Z.to_nat j) t 0) /\ safe (nth (Z.to_nat j) t 0)).
Proof.
  intros palette f r t E. unfold oklab_from_function in E. destruct (from_function_spec palette f r _ _ E) as (L & O & I).
  split; [rewrite L; reflexivity|]. split.
  - intros j J NI. rewrite O by (lia || exact NI). unfold identity_remap. rewrite (nth_indep _ 0 (Z.of_nat 0)) by (rewrite map_length, seq_length; lia).
    rewrite map_nth, seq_nth; lia.
  - intros j J. destruct (I j J) as (c & G & B). exists c. split; [exact G|]. apply find_best_nearest in B. split; [exact B|].
    destruct B as (b & a & c' & S & _). apply safe_in. rewrite S. apply in_or_app. right. now left.
Qed.
(** With the range left out the background and the animated colours stay, and
    the identity keeps every colour. *)
Theorem C87_default_range : forall palette f t, oklab_from_function palette f SAFE_COLOURS = Some t ->
  (forall j, j = 0 \/ 215 <= j <= 254 -> nth (Z.to_nat j) t 0 = j) /\
  ((forall c, f c = c) -> forall j c, safe j -> game_colour palette j c -> game_colour palette (nth (Z.to_nat j) t 0) c).
Proof.
  intros palette f t E. destruct (C87_recolour palette f SAFE_COLOURS t E) as (_ & O & _). split.
  - intros j J. apply O; [lia|]. rewrite safe_in. unfold safe. lia.
  - intros F j c S G. unfold oklab_from_function in E. destruct (from_function_spec palette f _ _ _ E) as (_ & _ & I). apply safe_in in S.
    destruct (I j S) as (c' & G' & B). rewrite (game_colour_fun _ _ _ _ G' G), F in B. exact (C87_exact palette _ _ j c S G B).
Qed.
(** It works for every palette of 256 colours. *)
Theorem C87_recolour_total : forall palette f r, length palette = 256%nat -> (forall i, In i r -> 0 <= i < 256) ->
  exists t, oklab_from_function palette f r = Some t.
Proof.
  intros palette f r LP H. unfold oklab_from_function.
  assert (Q : forall t, length t = 256%nat -> exists t', from_function palette f r t = Some t').
  { induction r as [|i r IH]; intros t LT; cbn [from_function]; [eauto|]. pose proof (H i (or_introl eq_refl)) as B. replace (0 <=? i) with true by lia.
    destruct (nth_error palette (Z.to_nat i)) as [c|] eqn:N; [|apply nth_error_None in N; lia]. cbn [bind].
    destruct (C87_total palette (f c) SAFE_COLOURS) as [T _].
    { intros j J. apply safe_in in J. unfold safe in J. unfold len. rewrite LP. lia. }
    destruct T as [b T]; [discriminate|]. rewrite T. cbn [bind].
    assert (SB : safe b). { apply find_best_nearest in T as (x & y & z & S & _). apply safe_in. rewrite S. apply in_or_app. right. now left. }
    unfold remap_set. replace ((0 <=? i) && (i <? len t) && byteb b)%bool with true.
    - cbn [bind]. apply IH; [intros j J; apply H; now right|]. now rewrite set_nth_length.
    - symmetry. unfold len, byteb, safe in *. rewrite LT. rewrite !andb_true_iff. lia. }
  apply Q. unfold identity_remap. now rewrite map_length, seq_length.
Qed.

(** A concrete case: in a palette of greys [0; 10; 20; 10] the colour 12 is
    nearest to the first 10, and in the range [3; 1] to the 10 at 3. *)
Definition greys : list colour := [(0, 0, 0); (10, 0, 0); (20, 0, 0); (10, 0, 0)].
Example C87_case : find_best greys (12, 0, 0) [0; 1; 2; 3] = Some 1 /\ find_best greys (12, 0, 0) [3; 1] = Some 3 /\
  find_best_all greys [(12, 0, 0); (19, 1, 0)] [0; 1; 2; 3] = Some [1; 2].
Proof. repeat split; reflexivity. Qed.
Example C87_case_recolour : exists t, oklab_from_function (map (fun i => (Z.of_nat i, 0, 0)) (seq 0 256)) (fun c => let '(a, b, d) := c in (a + 3, b, d)) [0; 5; 213; 240] = Some t
  /\ nth 0 t 9 = 3 /\ nth 5 t 9 = 8 /\ nth 213 t 9 = 214 /\ nth 240 t 9 = 255 /\ nth 241 t 9 = 241.
Proof. eexists. split; [vm_compute; reflexivity|]. repeat split; vm_compute; reflexivity. Qed.

Print Assumptions C87_nearest.
Print Assumptions C87_total.
Print Assumptions C87_array.
Print Assumptions C87_exact.
Print Assumptions C87_recolour.
Print Assumptions C87_default_range.
Print Assumptions C87_recolour_total.
