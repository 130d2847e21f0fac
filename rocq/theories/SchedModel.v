(** Model of BaseNewGRF._enumerate_sprites (grf/grf.py:472-549): numbering the
    resource actions and scheduling the loading of their files.  Definitions
    only.

    Objects are natural numbers (their identity).  [files s] is the list of
    LoadedResourceFile objects among s.get_resource_files(); [None] for
    something that is not a ResourceAction.  An absent entry of
    load_files / unload_files is the empty list (both are tested for truth). *)
From Coq Require Import ZArith List Bool.
From Verif Require Import Base RecordsModel RefsModel.
Import ListNotations.
Open Scope Z_scope.

Definition fid := nat.
Definition need (files : aid -> option (list fid)) (s : aid) : list fid :=
  match files s with Some l => l | None => [] end.

(** 479-491: resources without loaded files are numbered first, in order. *)
Record est := mkEst {
  e_order : list aid; e_prio : aid -> Z; e_pos : aid -> nat;
  e_sched : list aid; e_id : aid -> option Z; e_next : Z;
  e_load : aid -> list fid; e_last : list (fid * aid) }.
Fixpoint number_plain (files : aid -> option (list fid)) (sprites : list aid) (acc : list aid * (aid -> option Z) * Z * list aid)
  : list aid * (aid -> option Z) * Z * list aid :=
  match sprites with
  | [] => acc
  | s :: rest =>
      let '(ordered, ids, next, unordered) := acc in
      number_plain files rest
        (match files s with
         | None => acc
         | Some [] => (ordered ++ [s], upd ids s (Some next), next + 1, unordered)
         | Some (_ :: _) => (ordered, ids, next, unordered ++ [s])
         end)
  end.

(** 502-506: img_index[f], with repetitions. *)
Definition img_index (files : aid -> option (list fid)) (unordered : list aid) (f : fid) : list aid :=
  flat_map (fun s => map (fun _ => s) (filter (Nat.eqb f) (need files s))) unordered.

(** 513: list.sort is stable. *)
Fixpoint insert_by (key : aid -> Z) (x : aid) (l : list aid) : list aid :=
  match l with
  | [] => [x]
  | y :: l' => if key x <=? key y then x :: l else y :: insert_by key x l'
  end.
Definition sort_by (key : aid -> Z) (l : list aid) : list aid := fold_right (insert_by key) [] l.
(** 514-515: the last position wins for a repeated object. *)
Fixpoint positions (i : nat) (l : list aid) (pos : aid -> nat) : aid -> nat :=
  match l with [] => pos | s :: l => positions (S i) l (upd pos s i) end.

(** 535-536: while pos > i + 1 and priority(order[pos]) > prio: pos -= 1 *)
Fixpoint find_pos (order : list aid) (prio_of : aid -> Z) (i pos : nat) (prio : Z) : nat :=
  match pos with
  | O => O
  | S p => if Nat.ltb (S i) pos && (prio <? prio_of (nth pos order O)) then find_pos order prio_of i p prio else pos
  end.
Fixpoint set_nth (l : list aid) (n : nat) (v : aid) : list aid :=
  match l, n with
  | [], _ => []
  | _ :: l, O => v :: l
  | x :: l, S n => x :: set_nth l n v
  end.
(** 530-541: one x of img_index[fid]. *)
Definition bump (i : nat) (st : est) (x : aid) : est :=
  let prio := e_prio st x - 1 in
  let prios := upd (e_prio st) x prio in
  let old := e_pos st x in
  let pos := find_pos (e_order st) prios i old prio in
  if Nat.eqb pos old then
    mkEst (e_order st) prios (e_pos st) (e_sched st) (e_id st) (e_next st) (e_load st) (e_last st)
  else
    let moved := nth pos (e_order st) O in
    mkEst (set_nth (set_nth (e_order st) pos x) old moved) prios (upd (upd (e_pos st) x pos) moved old)
      (e_sched st) (e_id st) (e_next st) (e_load st) (e_last st).
(** 525-541: one file of the sprite. *)
Definition use_file (files : aid -> option (list fid)) (unordered : list aid) (i : nat) (sid : aid) (st : est) (f : fid) : est :=
  let seen := existsb (fun kv => Nat.eqb f (fst kv)) (e_last st) in
  let load := if seen then e_load st else upd (e_load st) sid (e_load st sid ++ [f]) in
  let st := mkEst (e_order st) (e_prio st) (e_pos st) (e_sched st) (e_id st) (e_next st) load
              (dict_set Nat.eqb (e_last st) f sid) in
  fold_left (bump i) (img_index files unordered f) st.
(** 520-541: for i, sid in enumerate(sprite_order), reading the list as it is
    at that moment. *)
Fixpoint enum_loop (files : aid -> option (list fid)) (unordered : list aid) (n i : nat) (st : est) : est :=
  match n with
  | O => st
  | S n =>
      let sid := nth i (e_order st) O in
      let st := mkEst (e_order st) (e_prio st) (e_pos st) (e_sched st ++ [sid]) (upd (e_id st) sid (Some (e_next st)))
                  (e_next st + 1) (e_load st) (e_last st) in
      enum_loop files unordered n (S i) (fold_left (use_file files unordered i sid) (need files sid) st)
  end.

Record entry := mkEntry { en_sprite : aid; en_load : list fid; en_unload : list fid }.
(** 472-549 *)
Definition enumerate_state (files : aid -> option (list fid)) (ids0 : aid -> option Z) (sprites : list aid) : est :=
  let '(ordered, ids, next, unordered) := number_plain files sprites ([], ids0, 1, []) in
  let prio s := Z.of_nat (length (need files s)) in
  let order := sort_by prio unordered in
  enum_loop files unordered (length order) 0
    (mkEst order prio (positions 0 order (fun _ => O)) ordered ids next (fun _ => []) []).
Definition unload_of (last : list (fid * aid)) (s : aid) : list fid :=
  map fst (filter (fun kv => Nat.eqb s (snd kv)) last).
Definition enumerate_sprites (files : aid -> option (list fid)) (ids0 : aid -> option Z) (sprites : list aid)
  : list entry * (aid -> option Z) :=
  let st := enumerate_state files ids0 sprites in
  (map (fun s => mkEntry s (e_load st s) (unload_of (e_last st) s)) (e_sched st), e_id st).
