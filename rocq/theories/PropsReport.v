(** Property C86: the numbers of the build report. *)
From Coq Require Import ZArith List Bool Lia.
From Verif Require Import Base BaseFacts RefsModel RefsProofs SchedModel SpecSched SchedProofs SchedProofs2 ContainerModel SpecContainer ContainerProofs ContainerTotal
  PropsContainer ReportModel.
Import ListNotations.
Open Scope Z_scope.

(** ---- specification ---- *)

(** The sum of [f] over a list. *)
Definition total {A} (f : A -> Z) (l : list A) : Z := fold_right (fun x a => f x + a) 0 l.
(** How many of the resources of an action came from there. *)
Definition came (o : origin) (l : list origin) : Z :=
  len (filter (fun x => match x, o with FromCache, FromCache | Encoded, Encoded | Uncacheable, Uncacheable => true | _, _ => false end) l).
(** A list without repetitions of the resource actions of the file. *)
Definition each_once (l rs : list aid) : Prop := NoDup l /\ forall s, In s l <-> In s rs.

(** ---- proofs ---- *)

Lemma total_app {A} (f : A -> Z) l l' : total f (l ++ l') = total f l + total f l'.
Proof. unfold total. induction l as [|x l IH]; cbn [app fold_right]; lia. Qed.
Lemma total_ext {A} (f g : A -> Z) l : (forall x, In x l -> f x = g x) -> total f l = total g l.
Proof. unfold total. induction l as [|x l IH]; cbn [fold_right]; intros H; [reflexivity|]. rewrite (H x (or_introl eq_refl)), IH; [reflexivity|]. intros y I. apply H. now right. Qed.
Lemma total_add {A} (f g : A -> Z) l : total (fun x => f x + g x) l = total f l + total g l.
Proof. unfold total. induction l as [|x l IH]; cbn [fold_right]; lia. Qed.
Lemma len_cons {A} (x : A) l : len (x :: l) = 1 + len l.
Proof. unfold len. cbn [length]. lia. Qed.
Lemma count_fold os : forall r, fold_left count_one os r =
  mk_report (num_sprites r + len os) (num_cached r + came FromCache os) (num_uncacheable r + came Uncacheable os) (num_duplicate r).
Proof.
  induction os as [|o os IH]; intros r; cbn [fold_left].
  - unfold came. cbn. destruct r; cbn; f_equal; lia.
  - rewrite IH. unfold came. destruct o; cbn [count_one num_sprites num_cached num_uncacheable num_duplicate filter]; rewrite ?len_cons; f_equal; lia.
Qed.
Lemma came_all os : len os = came FromCache os + came Encoded os + came Uncacheable os.
Proof. induction os as [|o os IH]; [reflexivity|]. unfold came in *. destruct o; cbn [filter]; rewrite !len_cons, ?len_cons; lia. Qed.

Lemma one_of (x : Z) : forall L, NoDup L -> In x L -> total (fun i => if x =? i then 1 else 0) L = 1.
Proof.
  unfold total. induction L as [|y L IH]; intros N I; [destruct I|]. inversion N as [|? ? N1 N2]; subst. cbn [fold_right].
  destruct (Z.eqb_spec x y) as [<- | D].
  - assert (Z0 : forall L, ~ In x L -> fold_right (fun i a => (if x =? i then 1 else 0) + a) 0 L = 0).
    { clear. induction L as [|z L IH]; intros I; [reflexivity|]. cbn [fold_right]. rewrite IH by (intros J; apply I; now right).
      destruct (Z.eqb_spec x z) as [-> |]; [exfalso; apply I; now left|reflexivity]. }
    now rewrite (Z0 L N1).
  - destruct I as [-> | I]; [congruence|]. rewrite (IH N2 I). reflexivity.
Qed.
Lemma count_by : forall (R : list (Z * bytes)) L, NoDup L -> (forall p, In p R -> In (fst p) L) ->
  len R = total (fun i => len (filter (fun r => fst r =? i) R)) L.
Proof.
  induction R as [|p R IH]; intros L N H.
  - cbn [filter]. unfold total. clear. induction L as [|x L IH]; [reflexivity|]. cbn [fold_right]. rewrite <- IH. reflexivity.
  - rewrite len_cons, (IH L N) by (intros q I; apply H; now right). rewrite <- (one_of (fst p) L N (H p (or_introl eq_refl))) at 1.
    rewrite <- total_add. apply total_ext. intros i _. cbn [filter]. destruct (fst p =? i); rewrite ?len_cons; lia.
Qed.

Lemma count_spec hash data how : forall sched hashes written r,
  (forall s, In s sched -> len (how s) = len (data s)) ->
  exists new reps, NoDup new /\ (forall s, In s new <-> In s sched /\ ~ In s written) /\
    (forall s, In s reps -> In s new /\ ~ In (hash (data s)) hashes) /\ NoDup (map (fun s => hash (data s)) reps) /\
    (forall s, In s new -> In (hash (data s)) hashes \/ exists t, In t reps /\ hash (data t) = hash (data s)) /\
    let r' := count_resources hash data how sched hashes written r in
    num_sprites r' = num_sprites r + total (fun s => len (data s)) new /\
    num_cached r' = num_cached r + total (fun s => came FromCache (how s)) new /\
    num_uncacheable r' = num_uncacheable r + total (fun s => came Uncacheable (how s)) new /\
    num_duplicate r' + total (fun s => len (data s)) reps = num_duplicate r + total (fun s => len (data s)) new.
Proof.
  induction sched as [|s sched IH]; intros hashes written r HL; cbn [count_resources].
  - exists [], []. split; [constructor|]. split; [intros x; cbn; tauto|]. split; [intros x []|]. split; [constructor|]. split; [intros x []|]. cbn. lia.
  - assert (HL' : forall x, In x sched -> len (how x) = len (data x)) by (intros x I; apply HL; now right).
    destruct (mem s written) eqn:M.
    + apply mem_In in M. destruct (IH hashes written r HL') as (new & reps & N & I & R & D & C & T). exists new, reps.
      split; [exact N|]. split; [|auto]. intros x. rewrite I. cbn [In]. split; [tauto|]. intros [[<- | X] Y]; tauto.
    + apply mem_notIn in M. rewrite count_fold. cbn [num_sprites num_cached num_uncacheable num_duplicate].
      specialize (HL s (or_introl eq_refl)). destruct (existsb (Z.eqb (hash (data s))) hashes) eqn:E.
      * apply existsb_exists in E as (h & Hh & E). apply Z.eqb_eq in E. subst h.
        match goal with |- context [count_resources _ _ _ sched hashes (s :: written) ?r1] => destruct (IH hashes (s :: written) r1 HL') as (new & reps & N & I & R & D & C & T) end.
        cbv zeta in T. cbn [num_sprites num_cached num_uncacheable num_duplicate] in T. exists (s :: new), reps.
        split; [constructor; [intros X; apply I in X as [_ X]; apply X; now left|exact N]|]. split.
        { intros x. cbn [In]. rewrite I. cbn [In]. split; [intros [<- | [X Y]]; [auto|tauto]|]. intros [[<- | X] Y]; [auto|].
          destruct (Nat.eq_dec s x) as [-> |]; [auto|]. right. split; [exact X|]. intros [Z | Z]; auto. }
        split; [intros x X; destruct (R x X); split; [now right|assumption]|]. split; [exact D|]. split.
        { intros x [<- | X]; [now left|apply (C x X)]. }
        cbv zeta. unfold total in *. cbn [fold_right]. lia.
      * assert (NH : ~ In (hash (data s)) hashes).
        { intros X. assert (existsb (Z.eqb (hash (data s))) hashes = true) by (apply existsb_exists; exists (hash (data s)); split; [exact X|apply Z.eqb_refl]). congruence. }
        match goal with |- context [count_resources _ _ _ sched ?hs (s :: written) ?r1] => destruct (IH hs (s :: written) r1 HL') as (new & reps & N & I & R & D & C & T) end.
        cbv zeta in T. cbn [num_sprites num_cached num_uncacheable num_duplicate] in T. exists (s :: new), (s :: reps).
        split; [constructor; [intros X; apply I in X as [_ X]; apply X; now left|exact N]|]. split.
        { intros x. cbn [In]. rewrite I. cbn [In]. split; [intros [<- | [X Y]]; [auto|tauto]|]. intros [[<- | X] Y]; [auto|].
          destruct (Nat.eq_dec s x) as [-> |]; [auto|]. right. split; [exact X|]. intros [Z | Z]; auto. }
        split.
        { intros x [<- | X]; [split; [now left|exact NH]|]. destruct (R x X) as [X1 X2]. split; [now right|]. intros Y. apply X2. now right. }
        split.
        { cbn [map]. constructor; [|exact D]. intros X. apply in_map_iff in X as (t & E1 & X). destruct (R t X) as [_ Q]. apply Q. left. now symmetry. }
        split.
        { intros x [<- | X]; [right; exists s; split; [now left|reflexivity]|]. destruct (C x X) as [[Y | Y] | (t & Y1 & Y2)]; [right; exists s; split; [now left|exact Y]|now left|].
          right. exists t. split; [now right|exact Y2]. }
        cbv zeta. unfold total in *. cbn [fold_right]. lia.
Qed.

(** C86: the total is the number of sprites and sounds of the resource
    actions, each action counted once; the total without the duplicates is
    the number of records in the file. *)
Theorem C86_totals : forall hash files pseudo data how sprites b ev,
  (forall s t, In s (resources files sprites) -> In t (resources files sprites) -> hash (data s) = hash (data t) -> data s = data t) ->
  (forall s, In s sprites -> files s = None -> pseudo s <> []) ->
  (forall s, In s (resources files sprites) -> len (how s) = len (data s)) ->
  do_write hash files pseudo data sprites = Some (b, ev) ->
  let r := build_report hash files data how sprites in
  exists c l, read_file b = Some c /\ each_once l (resources files sprites) /\
    num_sprites r = total (fun s => len (data s)) l /\
    num_sprites r - num_duplicate r = len (c_reals c) /\
    num_cached r = total (fun s => came FromCache (how s)) l /\
    num_uncacheable r = total (fun s => came Uncacheable (how s)) l /\
    num_sprites r = num_cached r + num_uncacheable r + total (fun s => came Encoded (how s)) l.
Proof.
  intros hash files pseudo data how sprites b ev HH HP HL W r.
  destruct (do_write_spec hash files pseudo data sprites HH HP b ev W) as (c & tgt & C1 & _ & _ & _ & _ & _ & _ & ST & TE & RE & _).
  unfold build_report in r. destruct (enumerate_sprites files (fun _ => None) sprites) as [sched ids] eqn:E. cbn [fst] in r.
  destruct (enumerate_any files _ _ _ _ E) as (A1 & _ & _).
  assert (HL' : forall s, In s (map en_sprite sched) -> len (how s) = len (data s)) by (intros s I; apply HL, A1, I).
  destruct (count_spec hash data how (map en_sprite sched) [] [] no_report HL') as (new & reps & N & I & R & D & C & T1 & T2 & T3 & T4).
  fold r in T1, T2, T3, T4. cbn [no_report num_sprites num_cached num_uncacheable num_duplicate] in T1, T2, T3, T4.
  exists c, new. split; [exact C1|].
  assert (IN : forall s, In s new <-> In s (resources files sprites)). { intros s. rewrite I, A1. cbn [In]. tauto. }
  split; [split; [exact N|exact IN]|]. split; [lia|]. split; [|split; [lia|split; [lia|]]].
  - replace (num_sprites r - num_duplicate r) with (total (fun s => len (data s)) reps) by lia.
    assert (RI : forall s, In s reps -> In s (resources files sprites)) by (intros s X; apply IN, (R s X)).
    rewrite (count_by (c_reals c) (map tgt reps)).
    + assert (Q : forall (f : Z -> Z) l, total f (map tgt l) = total (fun s => f (tgt s)) l).
      { intros f l. unfold total. induction l as [|x l IH]; [reflexivity|]. cbn [map fold_right]. now rewrite IH. }
      rewrite Q. apply total_ext. intros s X. rewrite <- (ST s (RI s X)). unfold stored, len. now rewrite map_length.
    + (* the ids of the representatives differ *)
      clear C T1 T2 T3 T4. induction reps as [|s reps IH]; [constructor|]. cbn [map] in D |- *. inversion D as [|? ? D1 D2]; subst. constructor.
      * intros X. apply in_map_iff in X as (t & E1 & X). apply D1. apply in_map_iff. exists t. split; [|exact X].
        rewrite <- (ST s (RI s (or_introl eq_refl))), <- (ST t (RI t (or_intror X))), E1. reflexivity.
      * apply IH; [intros x X; apply R; now right|exact D2|intros x X; apply RI; now right].
    + intros p P. destruct (RE p P) as (s & S & F). rewrite F. apply IN in S as S'. destruct (C s S') as [[] | (t & T & H)].
      apply in_map_iff. exists t. split; [|exact T]. apply TE; auto.
  - rewrite T1, T2, T3, !Z.add_0_l. rewrite <- !total_add. apply total_ext. intros s X. rewrite <- (HL s) by (apply IN; exact X). rewrite (came_all (how s)). lia.
Qed.

(** A concrete case: two actions with equal data and one with other data. *)
Definition ex_files (s : aid) : option (list fid) := match s with 0%nat => None | _ => Some [] end.
Definition ex_data (s : aid) : list bytes := match s with 3%nat => [[9]] | _ => [[1; 2]; [3]] end.
Definition ex_how (s : aid) : list origin := match s with 1%nat => [Encoded; Uncacheable] | 2%nat => [FromCache; Uncacheable] | _ => [Encoded] end.
Definition ex_hash (d : list bytes) : Z := fold_left (fun a x => a * 31 + x) (concat d) 7.
Example C86_case : exists b ev c, do_write ex_hash ex_files (fun _ => [5]) ex_data [0; 1; 2; 3; 1]%nat = Some (b, ev) /\ read_file b = Some c /\
  build_report ex_hash ex_files ex_data ex_how [0; 1; 2; 3; 1]%nat = mk_report 5 1 2 2 /\ len (c_reals c) = 3.
Proof.
  destruct (do_write ex_hash ex_files (fun _ => [5]) ex_data [0; 1; 2; 3; 1]%nat) as [[b ev]|] eqn:E; [|vm_compute in E; discriminate E].
  vm_compute in E. apply some_inj in E. apply pair_inj in E as [<- <-]. eexists _, _, _. split; [reflexivity|]. split; [vm_compute; reflexivity|]. split; vm_compute; reflexivity.
Qed.

Print Assumptions C86_totals.
