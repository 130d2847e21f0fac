(** Model of IDMap (grf/grf.py:774-865), the automatic numbering of names, and
    of its use over several sessions.  Definitions only.

    A feature is represented by its id, the id map file by the parsed JSON
    (json.dump and json.load themselves are not modelled), [None] for a missing
    file.  articulated= has no effect in the code. *)
From Coq Require Import ZArith List Bool String.
From Verif Require Import Base RecordsModel.
Import ListNotations.
Open Scope Z_scope.

(** The argument of resolve: an int or a str. *)
Inductive idval := VInt (n : Z) | VStr (s : string).
Definition idval_eqb (a b : idval) : bool :=
  match a, b with VInt x, VInt y => x =? y | VStr x, VStr y => String.eqb x y | _, _ => false end.
Definition fkey := (Z * idval)%type.
Definition fkey_eqb (a b : fkey) : bool := (fst a =? fst b) && idval_eqb (snd a) (snd b).
Definition fkey_in (k : fkey) (l : list fkey) : bool := existsb (fkey_eqb k) l.
Definition skey := (Z * string)%type.
Definition skey_eqb (a b : skey) : bool := (fst a =? fst b) && String.eqb (snd a) (snd b).

(** common.py:149-174: names of the features, by id. *)
Definition feature_names : list string :=
  ["train"; "rv"; "ship"; "aircraft"; "station"; "canal"; "bridge"; "house"; "global_var"; "industry_tile"; "industry";
   "cargo"; "sound_effect"; "airport"; "signal"; "object"; "railtype"; "airport_tile"; "roadtype"; "tramtype"; "road_stop"]%string.
Definition feature_name (f : Z) : string := nth (Z.to_nat f) feature_names ""%string.
Fixpoint index_of (n : string) (l : list string) : option Z :=
  match l with
  | [] => None
  | x :: l => if String.eqb n x then Some 0 else match index_of n l with Some i => Some (i + 1) | None => None end
  end.
(** common.py:138-140 *)
Definition from_name (n : string) : option Z := index_of n feature_names.

(** grf.py:777-784.  [_index], [_next_id], [_auto_ids], [_manual_ids]. *)
Record idmap := mkMap {
  m_loaded : bool; m_index : list (skey * Z); m_next : list (Z * Z); m_auto : list fkey; m_manual : list fkey }.
Definition new_map : idmap := mkMap false [] [] [] [].

(** The file: version and, per feature name, the ids of the names. *)
Record jdata := mkJ { j_version : Z; j_index : list (string * list (string * Z)) }.

(** 806-819: loading into temporaries. *)
Definition tmp := (list (skey * Z) * list (Z * Z) * list fkey)%type.
Definition load_name (f : Z) (t : tmp) (e : string * Z) : tmp :=
  let '(index, next, used) := t in
  (dict_set skey_eqb index (f, fst e) (snd e),
   dict_set Z.eqb next f (Z.max (match dict_get Z.eqb next f with Some v => v | None => 0 end) (snd e + 1)),
   (f, VStr (fst e)) :: used).
Fixpoint load_features (l : list (string * list (string * Z))) (t : tmp) : option tmp :=
  match l with
  | [] => Some t
  | (n, names) :: rest => do f <- from_name n; load_features rest (fold_left (load_name f) names t)
  end.
(** 793-819 *)
Definition load (file : option jdata) (m : idmap) : option idmap :=
  if m_loaded m then Some m
  else
    do d <- file;
    do! (j_version d =? 1);
    do t <- load_features (j_index d) ([], [], []);
    let '(index, next, used) := t in
    Some (mkMap true index next used (m_manual m)).

(** 821-834: nothing is written when the index is empty. *)
Definition save_entry (acc : list (string * list (string * Z))) (e : skey * Z) : list (string * list (string * Z)) :=
  let '((f, n), v) := e in
  let fn := feature_name f in
  let inner := match dict_get String.eqb acc fn with Some d => d | None => [] end in
  dict_set String.eqb acc fn (dict_set String.eqb inner n v).
Definition save (file : option jdata) (m : idmap) : option jdata :=
  match m_index m with
  | [] => file
  | l => Some (mkJ 1 (fold_left save_entry l []))
  end.

(** 836-837 (of the IDMap; BaseNewGRF.reserve_ids passes it two arguments and
    fails). *)
Definition reserve (ids : list fkey) (m : idmap) : idmap :=
  mkMap (m_loaded m) (m_index m) (m_next m) (m_auto m) (ids ++ m_manual m).

(** 839-844 *)
Definition min_id (f : Z) : Z := if f =? 9 then 0 else if f =? 10 then 37 else 300.
(** 859-860: while (feature, i) in _manual_ids: i += 1 *)
Fixpoint first_free (fuel : nat) (manual : list fkey) (f i : Z) : Z :=
  match fuel with
  | O => i
  | S fuel => if fkey_in (f, VInt i) manual then first_free fuel manual f (i + 1) else i
  end.
(** 846-865; the second component is None when an exception is raised. *)
Definition resolve (file : option jdata) (m : idmap) (f : Z) (v : idval) : idmap * option Z :=
  match load file m with
  | None => (m, None)
  | Some m =>
      match v with
      | VInt n =>
          if fkey_in (f, v) (m_auto m) then (m, None)
          else (mkMap (m_loaded m) (m_index m) (m_next m) (m_auto m) ((f, v) :: m_manual m), Some n)
      | VStr s =>
          match dict_get skey_eqb (m_index m) (f, s) with
          | Some i => (m, Some i)
          | None =>
              let i := match dict_get Z.eqb (m_next m) f with Some i => i | None => min_id f end in
              let i := first_free (S (List.length (m_manual m))) (m_manual m) f i in
              (mkMap (m_loaded m) (dict_set skey_eqb (m_index m) (f, s) i) (dict_set Z.eqb (m_next m) f (i + 1))
                 ((f, VInt i) :: m_auto m) (m_manual m), Some i)
          end
      end
  end.

(** Sessions: a program resolves, reserves and saves; a new run starts with an
    empty map and the file as it was left. *)
Inductive step := SResolve (f : Z) (v : idval) | SReserve (ids : list fkey) | SSave | SRestart.
Record world := mkWorld { w_disk : option jdata; w_map : idmap }.
Definition do_step (w : world) (s : step) : world * option Z :=
  match s with
  | SResolve f v => let '(m, r) := resolve (w_disk w) (w_map w) f v in (mkWorld (w_disk w) m, r)
  | SReserve ids => (mkWorld (w_disk w) (reserve ids (w_map w)), None)
  | SSave => (mkWorld (save (w_disk w) (w_map w)) (w_map w), None)
  | SRestart => (mkWorld (w_disk w) new_map, None)
  end.
Fixpoint run (w : world) (steps : list step) : world * list (step * option Z) :=
  match steps with
  | [] => (w, [])
  | s :: rest =>
      let '(w, r) := do_step w s in
      let '(w', tr) := run w rest in
      (w', (s, r) :: tr)
  end.
