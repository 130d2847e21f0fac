(** Model of the railtype table of NewGRF (grf/grf.py:919-945, 998-1045).
    Definitions only. *)
From Coq Require Import ZArith List Bool String.
From Verif Require Import Base RecordsModel Action14Model PropModel Action0Model.
Import ListNotations.
Open Scope string_scope.
Open Scope list_scope.
Open Scope Z_scope.

(** _railtype_table: by the first label, the id and the labels; labels as bytes
    (to_bytes, grf/common.py:94-97). *)
Definition rtable := list (bytes * (Z * list bytes)).
(** 919-936 add_railtype; a single label becomes a tuple of one. *)
Definition add_railtype (t : rtable) (l : list bytes) : option (rtable * Z) :=
  match l with
  | [] => None
  | rt :: _ => Some (dict_set bytes_eqb t rt (len t, l), len t)
  end.
(** 938-943 set_railtype_table: the table and the ids. *)
Fixpoint add_railtypes (t : rtable) (ls : list (list bytes)) : option (rtable * list Z) :=
  match ls with
  | [] => Some (t, [])
  | l :: ls => do (t, i) <- add_railtype t l; do (t, r) <- add_railtypes t ls; Some (t, i :: r)
  end.
Definition set_railtype_table (ls : list (list bytes)) : option (rtable * list Z) := add_railtypes [] ls.
(** 945-949 get_railtype_id *)
Definition get_railtype_id (t : rtable) (l : bytes) : option Z := do e <- dict_get bytes_eqb t l; Some (fst e).

(** 1008-1033: the actions of one list; [n] is its length, [j] the index. *)
Fixpoint chain_actions (param n j : Z) (l : list bytes) : list (option bytes) :=
  match l with
  | [] => []
  | rt :: l =>
      let skip := 2 * (n - j - 1) - 1 in
      actionD_data (mkAD param 0 false 255 255 (DVRaw rt))
      :: (if 0 <? skip then [action7_data (mkA7 true 0 None 14 (IVBytes rt) skip)] else [])
      ++ chain_actions param n (j + 1) l
  end.
(** 1002-1034: the loop; [mods] as in the code. *)
Fixpoint table_actions (mods : list patch6) (t : rtable) : list (option bytes) * list patch6 :=
  match t with
  | [] => ([], mods)
  | (_, (i, l)) :: t =>
      if len l =? 1 then table_actions mods t
      else
        let param := 127 - len mods in
        let (r, m) := table_actions (mods ++ [(param, 4, 8 + i * 4)]) t in
        (chain_actions param (len l) 0 l ++ r, m)
  end.
(** 998-1045 _generate_railtype_table: the data of all actions. *)
Fixpoint all_some {A} (l : list (option A)) : option (list A) :=
  match l with [] => Some [] | x :: l => do a <- x; do r <- all_some l; Some (a :: r) end.
Definition railtype_actions (t : rtable) : option (list bytes) :=
  let (r, mods) := table_actions [] t in
  all_some (r ++ (match mods with [] => [] | _ => [action6_data mods] end)
            ++ [define_data (mkDef 8 0 (len t) [("railtype_table", map (fun e => VBytes (fst e)) t)])]).
