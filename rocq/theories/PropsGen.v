(** Properties C34 and C53: sounds and the list of generated actions. *)
From Coq Require Import ZArith List Bool Lia Arith.
From Verif Require Import Base BaseFacts RecordsModel GenModel SpecGen GenProofs.
Import ListNotations.
Open Scope Z_scope.

(** C34, after any sequence of additions and writes: ids are in 73..255 and
    never change afterwards, two sounds share an id exactly if they have the
    same fingerprint, and there are no gaps. *)
Theorem C34_ids : forall fp ops1 ops2, let g1 := grun fp (new_grf (fun _ => None)) ops1 in let g2 := grun fp g1 ops2 in
  let id1 := s_ids (g_sounds g1) in let id2 := s_ids (g_sounds g2) in
  (forall s i, id1 s = Some i -> 73 <= i <= 255 /\ id2 s = Some i) /\
  (forall s t i j, id1 s = Some i -> id1 t = Some j -> (i = j <-> fp s = fp t)) /\
  (forall s i j, id1 s = Some i -> 73 <= j <= i -> exists t, id1 t = Some j).
Proof. intros fp ops1 ops2 g1 g2 id1 id2. destruct (ids_spec_g fp ops1 ops2) as (A & B & C & _). auto. Qed.

(** The file announces as many sounds as it then holds, and the k-th of them is
    the sound that has id 73 + k. *)
Theorem C34_section : forall fp ops, let g := grun fp (new_grf (fun _ => None)) ops in
  let id := s_ids (g_sounds g) in
  match sound_section (g_sounds g) with
  | None => forall s, id s = None
  | Some (n, l) => n = len l /\ n <= 183 /\ sound_effects_data n = Some [17; n; 0] /\
      (forall k t, nth_error l k = Some t -> id t = Some (73 + Z.of_nat k)) /\
      (forall s i, id s = Some i -> exists k t, nth_error l k = Some t /\ i = 73 + Z.of_nat k /\ fp t = fp s)
  end.
Proof.
  intros fp ops g id. destruct (ids_spec_g fp ops []) as (_ & _ & _ & S). fold g in S. destruct (sound_section (g_sounds g)) as [[n l]|]; [|exact S].
  destruct S as (A & B & C & D & E). split; [exact A|]. split; [exact B|]. split; [|auto].
  assert (0 <= n) by (rewrite A; apply len_nonneg).
  unfold sound_effects_data, pack_B, pack_H. rewrite (proj2 (Z.leb_le 0 n)), (proj2 (Z.ltb_lt n 65536)) by lia. cbn [andb Z.leb Z.ltb Z.compare Pos.compare Pos.compare_cont concat_opt bind app].
  rewrite Z.mod_small, Z.div_small by lia. reflexivity.
Qed.

(** A sound is refused exactly if it is new and id 255 is taken; then nothing
    changes. *)
Theorem C34_refused : forall fp ops s, let g := grun fp (new_grf (fun _ => None)) ops in
  let '(g', ok) := add_items fp g [ISound s] in
  (ok = false <-> (forall t, s_ids (g_sounds g) t <> None -> fp t <> fp s) /\ (exists t, s_ids (g_sounds g) t = Some 255)) /\
  (ok = false -> g' = g) /\ (ok = true -> s_ids (g_sounds g') s <> None).
Proof. exact refused_spec. Qed.

(** The file name does not matter: RAWSound(path) makes a new SoundFile, which
    is compared by identity, so the same file used twice takes two ids. *)
Theorem C34_same_file_refuted : exists path (snd_of : sid -> nat * nat),
  snd_of 0%nat = raw_sound path 10 /\ snd_of 1%nat = raw_sound path 11 /\
  let g := grun (fun s => raw_fp (snd_of s)) (new_grf (fun _ => None)) [GAdd [ISound 0%nat; ISound 1%nat]] in
  s_ids (g_sounds g) 0%nat = Some 73 /\ s_ids (g_sounds g) 1%nat = Some 74.
Proof. exists 5%nat, (fun s => match s with O => raw_sound 5 10 | _ => raw_sound 5 11 end). repeat split. Qed.

(** C53: as long as at most 183 different sounds are used, everything works,
    and a written file has exactly the actions added, in the order they were
    added, generators replaced by what they generate, resources wrapped; and
    every sound used has an id. *)
Theorem C53_generated_partial : forall fp ops refs, forallb item_plain (added ops) = true ->
  (distinct fp (flat_map op_sounds ops ++ refs) <= 183)%nat ->
  exists g sec, write_grf fp (grun fp (new_grf (fun _ => None)) ops) refs = (g, Some (flat_map item_outs (added ops), sec)) /\
    sec = sound_section (g_sounds g) /\
    (forall s, In s (flat_map item_sounds (added ops) ++ refs) -> s_ids (g_sounds g) s <> None).
Proof. exact all_spec. Qed.
(** What is missing: a sprite already wrapped in SingleResourceAction is
    dropped without a word, and a wrapped sound raises AssertionError. *)
Theorem C53_wrapped_refuted : forall fp r s, let g := grun fp (new_grf (fun _ => None)) [GAdd [ISingle r]] in
  write_grf fp g [] = (g, Some ([], None)) /\ item_outs (ISingle r) = [OResource r] /\
  snd (add_items fp g [ISingleSound s]) = false.
Proof. intros. repeat split. Qed.

(** A case: sounds 1 and 2 share a fingerprint, sound 3 comes from a reference. *)
Definition exg_fp (s : sid) : nat := match s with 2%nat => 1%nat | _ => s end.
Definition exg_ops : list gop :=
  [GAdd [IAction 1; ISound 1%nat; IGen [IResource 7; ISound 2%nat; IGen [ISound 5%nat; IAction 2]]]; GWrite [3%nat]; GAdd [IResource 8]].
Example C34_C53_case :
  forallb item_plain (added exg_ops) = true /\ (distinct exg_fp (flat_map op_sounds exg_ops ++ [5%nat]) <= 183)%nat /\
  let '(g, r) := write_grf exg_fp (grun exg_fp (new_grf (fun _ => None)) exg_ops) [5%nat] in
  r = Some ([OAction 1; OResource 7; OAction 2; OResource 8], Some (3, [1; 5; 3]%nat)) /\
  map (s_ids (g_sounds g)) [1; 2; 3; 4; 5]%nat = [Some 73; Some 73; Some 75; None; Some 74].
Proof. repeat split. vm_compute. lia. Qed.

Print Assumptions C34_ids.
Print Assumptions C34_section.
Print Assumptions C34_refused.
Print Assumptions C34_same_file_refuted.
Print Assumptions C53_generated_partial.
Print Assumptions C53_wrapped_refuted.
