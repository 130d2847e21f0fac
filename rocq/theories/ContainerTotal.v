(** When writing succeeds, and the whole of do_write. *)
From Coq Require Import ZArith List Bool Lia Sorting.Permutation.
From Verif Require Import Base BaseFacts RecordsModel RecordsProofs EncodableProofs RefsModel RefsProofs SchedModel SpecSched SchedProofs SchedProofs2
  ContainerModel SpecContainer ContainerProofs.
Import ListNotations.
Open Scope Z_scope.

Lemma len_app : forall a b : bytes, len (a ++ b) = len a + len b.
Proof. intros a b. unfold len. rewrite app_length. lia. Qed.
Lemma dset_In : forall {V} (l : list (Z * V)) k v x, In x (dict_set Z.eqb l k v) -> x = (k, v) \/ In x l.
Proof.
  induction l as [|[k' v'] l IH]; intros k v x X; cbn [dict_set] in X; [destruct X as [<-|[]]; now left|].
  destruct (k =? k') eqn:E; destruct X as [<-|X].
  - left. apply Z.eqb_eq in E. now subst.
  - right. now right.
  - right. now left.
  - destruct (IH k v x X) as [->|Y]; [now left|right; now right].
Qed.

Section T.
  Variable hash : list bytes -> Z.
  Variable res : aid -> bool.
  Variable pseudo : aid -> bytes.
  Variable data : aid -> list bytes.
  Variable ids : aid -> option Z.

  Definition id_ok (s : aid) : Prop := exists v, ids s = Some v /\ 0 < v < 4294967296.

  Lemma write_pseudo_ex : forall b d t, len d < 4294967296 -> 0 <= t < 256 -> exists p, write_pseudo b d t = Some p.
  Proof.
    intros b d t Hd Ht. unfold write_pseudo.
    rewrite pack_I_dword_ok by (pose proof (len_nonneg d); lia). rewrite pack_B_ok by exact Ht. cbn [concat_opt bind]. eexists. reflexivity.
  Qed.
  Lemma write_pseudos_ex : forall l b refs,
    (forall s, In s l -> res s = true -> id_ok s) -> (forall s, In s l -> res s = false -> len (pseudo s) < 4294967296) ->
    exists p, write_pseudos res pseudo ids l b refs = Some p.
  Proof.
    induction l as [|s l IH]; intros b refs H1 H2; cbn [write_pseudos]; [eexists; reflexivity|].
    destruct (res s) eqn:R.
    - destruct (H1 s (or_introl eq_refl) R) as (v & V & W). rewrite V. cbn [bind]. rewrite pack_I_dword_ok by lia. cbn [bind].
      destruct (write_pseudo_ex b (dword v) 253) as ([b' o] & E); [reflexivity|lia|]. rewrite E. cbn [bind].
      apply IH; intros x X; [apply H1|apply H2]; now right.
    - destruct (write_pseudo_ex b (pseudo s) 255) as ([b' o] & E); [apply H2; [now left|exact R]|lia|]. rewrite E. cbn [bind].
      apply IH; intros x X; [apply H1|apply H2]; now right.
  Qed.

  Lemma write_resource_ex : forall id l, 0 <= id < 4294967296 -> (forall d, In d l -> len d < 4294967296) ->
    exists c, concat_opt (map (write_resource id) l) = Some c.
  Proof.
    intros id. induction l as [|d l IH]; intros Hi H; cbn [map concat_opt]; [eexists; reflexivity|].
    unfold write_resource at 1. rewrite !pack_I_dword_ok; [|pose proof (len_nonneg d); specialize (H d (or_introl eq_refl)); lia|exact Hi].
    cbn [concat_opt bind]. destruct IH as [c C]; [exact Hi|intros x X; apply H; now right|]. rewrite C. cbn [bind]. eexists. reflexivity.
  Qed.
  Lemma write_resources_ex : forall sched w,
    (forall s, In s (map en_sprite sched) -> id_ok s /\ forall d, In d (data s) -> len d < 4294967296) ->
    (forall k v, dict_get Z.eqb (w_hashes w) k = Some v -> 0 <= v < 4294967296) ->
    (forall k v, In (k, v) (w_renum w) -> 0 <= v < 4294967296) ->
    exists w', write_resources hash ids data sched w = Some w' /\ (forall k v, In (k, v) (w_renum w') -> 0 <= v < 4294967296).
  Proof.
    induction sched as [|e sched IH]; intros w H H1 H2; cbn [write_resources]; [exists w; auto|]. cbv zeta.
    assert (H' : forall s, In s (map en_sprite sched) -> id_ok s /\ forall d, In d (data s) -> len d < 4294967296) by (intros s S; apply H; now right).
    destruct (mem (en_sprite e) (w_written w)); [apply IH; assumption|].
    destruct (H (en_sprite e) (or_introl eq_refl)) as ((id & I & R) & D). rewrite I. cbn [bind].
    destruct (dict_get Z.eqb (w_hashes w) (hash (data (en_sprite e)))) as [sid|] eqn:G.
    - apply IH; [exact H'|exact H1|]. cbn [w_renum]. intros k v K. apply dset_In in K as [K|K]; [|now apply (H2 k)].
      injection K as _ ->. now apply (H1 _ _ G).
    - destruct (write_resource_ex id (data (en_sprite e))) as [c C]; [lia|exact D|]. rewrite C. cbn [bind].
      apply IH; [exact H'| |exact H2]. cbn [w_hashes]. intros k v K. rewrite dget_set in K. destruct (k =? _); [apply some_inj in K; lia|now apply (H1 k)].
  Qed.
  Lemma patch_refs_ex : forall refs l b, (forall k v, In (k, v) l -> 0 <= v < 4294967296) ->
    exists b', fold_left (fun b kv => do b <- b; patch_refs refs b kv) l (Some b) = Some b'.
  Proof.
    intros refs. induction l as [|[k v] l IH]; intros b H; cbn [fold_left]; [eexists; reflexivity|].
    cbn [bind]. unfold patch_refs at 2. cbn [fst snd]. rewrite pack_I_dword_ok by (apply (H k); now left). cbn [bind].
    apply IH. intros k' v' K. apply (H k'). now right.
  Qed.
  Lemma enc_size : forall l, len (enc (map (image res pseudo (idd ids)) l)) = actions_size res pseudo l.
  Proof.
    induction l as [|s l IH]; [reflexivity|]. cbn [map enc flat_map actions_size]. fold (enc (map (image res pseudo (idd ids)) l)).
    rewrite len_app, IH. unfold len at 1. rewrite enc1_length. unfold image. destruct (res s); cbn [snd]; [rewrite dword_length|unfold len]; lia.
  Qed.

  Lemma write_file_ex : forall sprites sched,
    (forall s, In s sprites -> res s = true -> id_ok s) ->
    (forall s, In s sprites -> res s = false -> len (pseudo s) < 4294967296) ->
    (forall s, In s (map en_sprite sched) -> id_ok s /\ forall d, In d (data s) -> len d < 4294967296) ->
    14 + actions_size res pseudo sprites < 4294967296 ->
    exists p, write_file hash res pseudo data ids sprites sched = Some p.
  Proof.
    intros sprites sched H1 H2 H3 H4. unfold write_file. cbv zeta.
    destruct (write_pseudo_ex (grf_header ++ [0; 0; 0; 0] ++ [0]) [2; 0; 0; 0] 255) as ([b o] & E); [reflexivity|lia|].
    assert (Lb : len b = 24).
    { unfold write_pseudo in E. vm_compute in E. injection E as <- _. reflexivity. }
    rewrite E. cbn [bind]. destruct (write_pseudos_ex sprites b [] H1 H2) as ([b1 refs] & E1). rewrite E1. cbn [bind].
    destruct (write_pseudos_spec hash res pseudo data ids _ _ _ _ _ E1) as (B1 & _).
    destruct (write_resources_ex sched (mkW (b1 ++ [0; 0; 0; 0]) [] [] [] []) H3) as (w & Hw & Hr); [discriminate|intros k v []|].
    rewrite Hw. cbn [bind]. rewrite pack_I_dword_ok.
    2:{ rewrite B1, len_app, enc_size, Lb. cbn [grf_header length]. pose proof (len_nonneg (enc (map (image res pseudo (idd ids)) sprites))) as P.
        rewrite enc_size in P. lia. }
    cbn [bind]. match goal with |- context [fold_left ?f ?l (Some ?b)] => destruct (patch_refs_ex refs l b Hr) as [b' B'] end.
    rewrite B'. cbn [bind]. eexists. reflexivity.
  Qed.
End T.

Section D.
  Variable hash : list bytes -> Z.
  Variable files : aid -> option (list fid).
  Variable pseudo : aid -> bytes.
  Variable data : aid -> list bytes.
  Variable sprites : list aid.
  Notation res := (isres files).
  Notation rs := (resources files sprites).

  Lemma in_res : forall s, In s rs <-> In s sprites /\ res s = true.
  Proof. intro s. unfold resources. rewrite filter_In. unfold isres. reflexivity. Qed.

  Lemma do_write_ex :
    (forall s, In s sprites -> files s = None -> len (pseudo s) < 4294967296) ->
    (forall s d, In s sprites -> files s <> None -> In d (data s) -> len d < 4294967296) ->
    14 + actions_size res pseudo sprites < 4294967296 ->
    exists p, do_write hash files pseudo data sprites = Some p.
  Proof.
    intros H1 H2 H3. unfold do_write. destruct (enumerate_sprites files (fun _ => None) sprites) as [sched ids] eqn:E.
    destruct (enumerate_any files _ _ _ _ E) as (A1 & A2 & _).
    assert (B : Z.of_nat (length rs) < 4294967296).
    { assert (Q : 5 * Z.of_nat (length rs) <= actions_size res pseudo sprites).
      { clear. unfold resources. induction sprites as [|s l IH]; cbn [filter length actions_size]; [lia|]. unfold isres at 1.
        pose proof (len_nonneg (pseudo s)). destruct (files s); cbn [length]; lia. }
      lia. }
    assert (I : forall s, In s rs -> id_ok ids s).
    { intros s S. destruct (A2 s S) as (v & V & W). exists v. split; [exact V|lia]. }
    apply write_file_ex.
    - intros s S R. apply I, in_res. auto.
    - intros s S R. apply H1; [exact S|]. destruct (files s); [discriminate|reflexivity].
    - intros s S. apply A1 in S. split; [now apply I|]. intros d D. apply in_res in S as [S R]. apply (H2 s); [exact S| |exact D].
      unfold isres in R. destruct (files s); discriminate.
    - exact H3.
  Qed.

  Hypothesis Hhash : forall s t, In s rs -> In t rs -> hash (data s) = hash (data t) -> data s = data t.
  Hypothesis Hpseudo : forall s, In s sprites -> files s = None -> pseudo s <> [].

  Lemma do_write_spec : forall b ev, do_write hash files pseudo data sprites = Some (b, ev) ->
    exists c tgt, read_file b = Some c /\
      c_header c = grf_header /\ c_compression c = 0 /\ c_magic c = [4; 0; 0; 0; 255; 2; 0; 0; 0] /\
      c_offset c = c_real_offset c /\ c_rest c = [] /\
      c_pseudos c = map (image res pseudo tgt) sprites /\
      (forall s, In s rs -> stored c (tgt s) = data s) /\
      (forall s t, In s rs -> In t rs -> data s = data t -> tgt s = tgt t) /\
      (forall p, In p (c_reals c) -> exists s, In s rs /\ fst p = tgt s) /\
      (NoDup rs -> ev = flat_map entry_events (fst (enumerate_sprites files (fun _ => None) sprites))).
  Proof.
    intros b ev H. unfold do_write in H. destruct (enumerate_sprites files (fun _ => None) sprites) as [sched ids] eqn:E.
    destruct (enumerate_any files _ _ _ _ E) as (A1 & A2 & A3).
    destruct (write_file_spec hash res pseudo data ids rs) with (sprites := sprites) (sched := sched) (b := b) (ev := ev)
      as (c & tgt & C1 & C2 & C3 & C4 & C5 & _ & C6 & C7 & C8 & C9 & C10 & C11).
    - intros s S. destruct (A2 s S) as (v & V & W). exists v. split; [exact V|lia].
    - exact A3.
    - exact Hhash.
    - intros s S R. apply A1, in_res. auto.
    - intros s S. apply A1 in S. apply in_res in S as S'. destruct S' as [X Y]. auto.
    - intros s S R. apply Hpseudo; [exact S|]. unfold isres in R. destruct (files s); [discriminate|reflexivity].
    - exact H.
    - exists c, tgt. split; [exact C1|]. split; [exact C2|]. split; [exact C3|]. split; [exact C4|]. split; [exact C5|]. split; [exact C6|].
      split; [exact C7|]. split; [|split; [|split]].
      + intros s S. apply in_res in S as [S R]. now apply C8.
      + intros s t S T. apply in_res in S as [S R]. apply in_res in T as [T R']. now apply C9.
      + intros p P. destruct (C10 p P) as (s & S & R & F). exists s. split; [apply in_res; auto|exact F].
      + intro N. cbn [fst]. apply C11. pose proof (ids_spec files (fun _ => None) sprites N) as X. rewrite E in X. destruct X as [X _].
        eapply Permutation_NoDup; [symmetry; exact X|exact N].
  Qed.
End D.
