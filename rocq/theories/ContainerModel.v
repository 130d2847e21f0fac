(** Model of the file written by BaseNewGRF._do_write (grf/grf.py:576-725) and
    of the framing read back by decompile.read (grf/decompile.py:1050-1115,
    1226-1262, 1468-1508).  Definitions only.

    [res s] says whether object [s] is a ResourceAction; [pseudo s] is
    get_data() of any other action; [data s] is the list of encoded resources
    of a ResourceAction (get_sprite_data of each of get_resources(), 635-663);
    [ids] are the sprite_id attributes after enumeration; [hash] is Python's
    hash of a tuple of bytes.  Timing and statistics are left out. *)
From Coq Require Import ZArith List Bool.
From Verif Require Import Base RecordsModel RefsModel SchedModel.
Import ListNotations.
Open Scope Z_scope.

(** f.seek(ofs); f.write(v) inside the written part of the file. *)
Definition patch (b : bytes) (ofs : nat) (v : bytes) : bytes :=
  firstn ofs b ++ v ++ skipn (ofs + length v) b.

(** 268-272 _write_pseudo_sprite: the new file content and the position of the
    data. *)
Definition write_pseudo (b : bytes) (data : bytes) (grf_type : Z) : option (bytes * nat) :=
  do h <- concat_opt [pack_I (len data); pack_B grf_type];
  Some (b ++ h ++ data, length (b ++ h)).

(** 623-632: the pseudo sprites; [refs] is resource_references. *)
Definition add_ref (refs : list (Z * list nat)) (id : Z) (ofs : nat) : list (Z * list nat) :=
  dict_set Z.eqb refs id ((match dict_get Z.eqb refs id with Some l => l | None => [] end) ++ [ofs]).
Fixpoint write_pseudos (res : aid -> bool) (pseudo : aid -> bytes) (ids : aid -> option Z) (sprites : list aid)
  (b : bytes) (refs : list (Z * list nat)) : option (bytes * list (Z * list nat)) :=
  match sprites with
  | [] => Some (b, refs)
  | s :: rest =>
      if res s then
        do id <- ids s;
        do d <- pack_I id;
        do (b, ofs) <- write_pseudo b d 253;
        write_pseudos res pseudo ids rest b (add_ref refs id ofs)
      else
        do (b, _) <- write_pseudo b (pseudo s) 255;
        write_pseudos res pseudo ids rest b refs
  end.

(** 665-703: the resources.  [ev] records what happens to the files. *)
Inductive event := ELoad (f : fid) | EEncode (s : aid) | EUnload (f : fid).
Record wstate := mkW {
  w_file : bytes; w_hashes : list (Z * Z); w_renum : list (Z * Z); w_written : list aid; w_events : list event }.
Definition write_resource (id : Z) (d : bytes) : option bytes :=
  do h <- concat_opt [pack_I id; pack_I (len d)]; Some (h ++ d).
Fixpoint write_resources (hash : list bytes -> Z) (ids : aid -> option Z) (data : aid -> list bytes) (sched : list entry)
  (w : wstate) : option wstate :=
  match sched with
  | [] => Some w
  | e :: rest =>
      let s := en_sprite e in
      let ev := w_events w ++ map ELoad (en_load e) in
      if mem s (w_written w)
      then write_resources hash ids data rest (mkW (w_file w) (w_hashes w) (w_renum w) (w_written w) ev)
      else
        do id <- ids s;
        let h := hash (data s) in
        let ev := ev ++ EEncode s :: map EUnload (en_unload e) in
        match dict_get Z.eqb (w_hashes w) h with
        | Some sid =>
            write_resources hash ids data rest
              (mkW (w_file w) (w_hashes w) (dict_set Z.eqb (w_renum w) id sid) (s :: w_written w) ev)
        | None =>
            do c <- concat_opt (map (write_resource id) (data s));
            write_resources hash ids data rest
              (mkW (w_file w ++ c) (dict_set Z.eqb (w_hashes w) h id) (w_renum w) (s :: w_written w) ev)
        end
  end.

(** 711-714 *)
Definition patch_refs (refs : list (Z * list nat)) (b : bytes) (kv : Z * Z) : option bytes :=
  do v <- pack_I (snd kv);
  Some (fold_left (fun b ofs => patch b ofs v) (match dict_get Z.eqb refs (fst kv) with Some l => l | None => [] end) b).

(** 610-714: header, pseudo sprites, resources, patches. *)
Definition grf_header : bytes := [0; 0; 71; 82; 70; 130; 13; 10; 26; 10].
Definition write_file (hash : list bytes -> Z) (res : aid -> bool) (pseudo : aid -> bytes) (data : aid -> list bytes)
  (ids : aid -> option Z) (sprites : list aid) (sched : list entry) : option (bytes * list event) :=
  let data_offset_pos := length grf_header in
  let b := grf_header ++ [0; 0; 0; 0] ++ [0] in
  do (b, _) <- write_pseudo b [2; 0; 0; 0] 255;
  do (b, refs) <- write_pseudos res pseudo ids sprites b [];
  let data_offset := len b - Z.of_nat data_offset_pos in
  do w <- write_resources hash ids data sched (mkW (b ++ [0; 0; 0; 0]) [] [] [] []);
  let b := w_file w ++ [0; 0; 0; 0] in
  do o <- pack_I data_offset;
  let b := patch b data_offset_pos o in
  do b <- fold_left (fun b kv => do b <- b; patch_refs refs b kv) (w_renum w) (Some b);
  Some (b, w_events w).

(** 605-714 with the enumeration before it. *)
Definition do_write (hash : list bytes -> Z) (files : aid -> option (list fid)) (pseudo : aid -> bytes)
  (data : aid -> list bytes) (sprites : list aid) : option (bytes * list event) :=
  let '(sched, ids) := enumerate_sprites files (fun _ => None) sprites in
  write_file hash (fun s => match files s with Some _ => true | None => false end) pseudo data ids sprites sched.

(** ** Reading: decompile.py *)
(** f.read(n), where a short read makes the file unreadable. *)
Definition rd_take (n : nat) (b : bytes) : option (bytes * bytes) :=
  if Nat.leb n (length b) then Some (firstn n b, skipn n b) else None.
(** 1050-1115 read_pseudo_sprite in container version 2, framing only: type
    and data of each pseudo sprite up to the zero length.  [fuel] bounds the
    number of sprites by the size of the file. *)
Fixpoint read_pseudos (fuel : nat) (b : bytes) : option (list (Z * bytes) * bytes) :=
  match fuel with
  | O => None
  | S fuel =>
      do (l, b) <- rd_I b;
      if l =? 0 then Some ([], b)
      else
        do (t, b) <- rd_B b;
        do (d, b) <- rd_take (Z.to_nat l) b;
        do (r, b) <- read_pseudos fuel b;
        Some ((t, d) :: r, b)
  end.
(** 1226-1262 read_real_sprite, framing only: the record of [num] bytes after
    id and size, up to the zero id. *)
Fixpoint read_reals (fuel : nat) (b : bytes) : option (list (Z * bytes) * bytes) :=
  match fuel with
  | O => None
  | S fuel =>
      do (id, b) <- rd_I b;
      if id =? 0 then Some ([], b)
      else
        do (num, b) <- rd_I b;
        do (d, b) <- rd_take (Z.to_nat num) b;
        do (r, b) <- read_reals fuel b;
        Some ((id, d) :: r, b)
  end.
Record contents := mkC {
  c_header : bytes; c_offset : Z; c_real_offset : Z; c_compression : Z; c_magic : bytes;
  c_pseudos : list (Z * bytes); c_reals : list (Z * bytes); c_rest : bytes }.
(** 1468-1507, for files starting with 00 *)
Definition read_file (f : bytes) : option contents :=
  do (first, b) <- rd_B f;
  do! (first =? 0);
  do (h, b) <- rd_take 9 b;
  do (ofs, b) <- rd_I b;
  do (comp, b) <- rd_B b;
  let header_offset := len f - len b - 1 in
  do (magic, b) <- rd_take 9 b;
  do (ps, b) <- read_pseudos (length f) b;
  let real := len f - len b - header_offset in
  do (rs, b) <- read_reals (length f) b;
  Some (mkC (first :: h) ofs real comp magic ps rs b).
