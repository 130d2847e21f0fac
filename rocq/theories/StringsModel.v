(** Model of StringManager and StringRef (grf/strings.py:260-443) and of
    grf_compile_string (234-257).  Definitions only.

    The nml package is not part of the repository: its Language.handle_text is
    modelled as storing a text under a name and raising if the name has one
    already; translation of an expression into the defined languages is the
    parameter [render], a function of the texts of the default language.
    [hname] and [htuple] are Python's hash of a str and of a tuple of ints. *)
From Coq Require Import ZArith List Bool String Decimal DecimalString.
From Verif Require Import Base RecordsModel.
Import ListNotations.
Open Scope Z_scope.

(** nml.expression.Identifier and nml.expression.String. *)
Inductive expr := EIdent (n : string) | EString (n : string) (args : list expr).
(** 372-376 StringRef (its manager is the one at hand) *)
Record sref := mkRef { r_expr : expr; r_hash : Z }.
(** 260-269 *)
Record smgr := mkSM {
  m_globals : list (Z * (Z * sref)); m_persistents : list (Z * (Z * sref)); m_default : list (string * string);
  m_next_string : nat; m_named : list (string * string) }.
Definition new_smgr : smgr := mkSM [] [] [] 1 [].

Section Hash.
  Variable hname : string -> Z.
  Variable htuple : list Z -> Z.
  (** 271-278 *)
  Definition add_global (m : smgr) (r : sref) : smgr * Z :=
    match dict_get Z.eqb (m_globals m) (r_hash r) with
    | Some (i, _) => (m, i)
    | None =>
        let i := len (m_globals m) in
        (mkSM (dict_set Z.eqb (m_globals m) (r_hash r) (i, r)) (m_persistents m) (m_default m) (m_next_string m) (m_named m), i)
    end.
  (** 280-287 *)
  Definition add_persistent (m : smgr) (r : sref) : smgr * Z :=
    match dict_get Z.eqb (m_persistents m) (r_hash r) with
    | Some (i, _) => (m, i)
    | None =>
        let i := len (m_persistents m) + 56320 in
        (mkSM (m_globals m) (dict_set Z.eqb (m_persistents m) (r_hash r) (i, r)) (m_default m) (m_next_string m) (m_named m), i)
    end.
  (** nml: Language.handle_text of the default language *)
  Definition handle_text (m : smgr) (n t : string) : smgr * bool :=
    match dict_get String.eqb (m_default m) n with
    | Some _ => (m, false)
    | None => (mkSM (m_globals m) (m_persistents m) (dict_set String.eqb (m_default m) n t) (m_next_string m) (m_named m), true)
    end.
  (** 357: f'GRFPY_{self._next_string_id}' *)
  Definition auto_name (k : nat) : string := ("GRFPY_" ++ NilEmpty.string_of_uint (Nat.to_uint k))%string.
  (** 350-365 add(value, name) for a str; 345-348 the reference.  The prefix is
      always empty (262). *)
  Definition name_ref (n : string) : sref := mkRef (EIdent n) (hname n).
  Definition add (m : smgr) (t : string) (name : option string) : smgr * option sref :=
    match name with
    | None =>
        match dict_get String.eqb (m_named m) t with
        | Some n => (m, Some (name_ref n))
        | None =>
            let n := auto_name (m_next_string m) in
            let m := mkSM (m_globals m) (m_persistents m) (m_default m) (S (m_next_string m)) (dict_set String.eqb (m_named m) t n) in
            let '(m, ok) := handle_text m n t in
            (m, if ok then Some (name_ref n) else None)
        end
    | Some n => let '(m, ok) := handle_text m n t in (m, if ok then Some (name_ref n) else None)
    end.
  (** 343-348 __getitem__ *)
  Definition getitem (m : smgr) (n : string) : option sref :=
    match dict_get String.eqb (m_default m) n with Some _ => Some (name_ref n) | None => None end.
  (** 384-388 string_nmlexpr *)
  Definition string_expr (r : sref) : expr := match r_expr r with EIdent n => EString n [] | e => e end.
  (** 390-404 eval, with str arguments registered beforehand *)
  Definition eval (r : sref) (args : list sref) : option sref :=
    match r_expr r with
    | EIdent n => Some (mkRef (EString n (map string_expr args)) (htuple (r_hash r :: map r_hash args)))
    | EString _ _ => None
    end.
End Hash.

Section Emit.
  (** get_pairs (406-413) of an expression, the default text 0x7F first. *)
  Variable render : list (string * string) -> expr -> option (list (Z * bytes)).
  (** 419-429 get_actions(TRAIN, offset, True) *)
  Definition ref_actions (m : smgr) (r : sref) (offset : Z) : option (list action4) :=
    do p <- render (m_default m) (string_expr r);
    do! (action4_ctor (mkA4 0 127 offset true []));
    Some (map (fun e => mkA4 0 (fst e) offset true [snd e]) p).
  Fixpoint all_actions (m : smgr) (base : Z) (l : list (Z * (Z * sref))) : option (list action4) :=
    match l with
    | [] => Some []
    | (_, (i, r)) :: l =>
        do a <- ref_actions m r (base + i);
        do b <- all_actions m base l;
        Some (a ++ b)
    end.
  (** 308-312; 314-338 without the language tables of imported languages *)
  Definition get_persistent_actions (m : smgr) : option (list action4) := all_actions m 0 (m_persistents m).
  Definition get_actions (m : smgr) : option (list action4) := all_actions m 53248 (m_globals m).
End Emit.

(** A program using the manager. *)
Inductive sop := OAdd (t : string) | ONamed (t n : string) | OGlobal (r : sref) | OPersistent (r : sref).
Inductive sres := RRef (r : sref) | RId (i : Z) | RFail.
Definition sstep (hname : string -> Z) (m : smgr) (o : sop) : smgr * sres :=
  match o with
  | OAdd t => let '(m, r) := add hname m t None in (m, match r with Some r => RRef r | None => RFail end)
  | ONamed t n => let '(m, r) := add hname m t (Some n) in (m, match r with Some r => RRef r | None => RFail end)
  | OGlobal r => let '(m, i) := add_global m r in (m, RId i)
  | OPersistent r => let '(m, i) := add_persistent m r in (m, RId i)
  end.
Fixpoint srun (hname : string -> Z) (m : smgr) (ops : list sop) : smgr * list (sop * sres) :=
  match ops with
  | [] => (m, [])
  | o :: ops => let '(m, r) := sstep hname m o in let '(m, tr) := srun hname m ops in (m, (o, r) :: tr)
  end.
(** strings.add(text).get_global_id() and get_persistent_id(), as in the
    library (grf/lib/vehicle.py:110, grf/lib/industry.py:109). *)
Definition text_global (hname : string -> Z) (m : smgr) (t : string) : smgr * option Z :=
  match add hname m t None with (m, Some r) => let '(m, i) := add_global m r in (m, Some i) | (m, None) => (m, None) end.
Definition text_persistent (hname : string -> Z) (m : smgr) (t : string) : smgr * option Z :=
  match add hname m t None with (m, Some r) => let '(m, i) := add_persistent m r in (m, Some i) | (m, None) => (m, None) end.

(** ** grf_compile_string (234-257)
    A Python str is the list of its code points; [ascii] is
    nml.grfstrings.is_ascii_string.  int(s, 16) is modelled for strings of hex
    digits (int also allows blanks, signs and underscores). *)
Definition utf8 (c : Z) : option bytes :=
  if c <? 0 then None
  else if c <? 128 then Some [c]
  else if c <? 2048 then Some [192 + c / 64; 128 + c mod 64]
  else if (55296 <=? c) && (c <? 57344) then None
  else if c <? 65536 then Some [224 + c / 4096; 128 + c / 64 mod 64; 128 + c mod 64]
  else if c <? 1114112 then Some [240 + c / 262144; 128 + c / 4096 mod 64; 128 + c / 64 mod 64; 128 + c mod 64]
  else None.
Definition hex_digit (c : Z) : option Z :=
  if (48 <=? c) && (c <=? 57) then Some (c - 48)
  else if (65 <=? c) && (c <=? 70) then Some (c - 55)
  else if (97 <=? c) && (c <=? 102) then Some (c - 87)
  else None.
Fixpoint hex_int (acc : Z) (l : list Z) : option Z :=
  match l with [] => Some acc | c :: l => do d <- hex_digit c; hex_int (16 * acc + d) l end.
Definition int16 (l : list Z) : option Z := match l with [] => None | _ => hex_int 0 l end.
Fixpoint compile_loop (fuel : nat) (s : list Z) : option bytes :=
  match fuel with
  | O => None
  | S fuel =>
      match s with
      | [] => Some []
      | c :: r =>
          if c =? 92 then
            match r with
            | [] => None
            | e :: r' =>
                if (e =? 92) || (e =? 34) then do b <- utf8 e; do t <- compile_loop fuel r'; Some (b ++ t)
                else if e =? 85 then
                  do v <- int16 (firstn 4 r'); do b <- utf8 v; do t <- compile_loop fuel (skipn 4 r'); Some (b ++ t)
                else do v <- int16 (firstn 2 r); do b <- mk_bytes [v]; do t <- compile_loop fuel (skipn 2 r); Some (b ++ t)
            end
          else do b <- utf8 c; do t <- compile_loop fuel r; Some (b ++ t)
      end
  end.
Definition compile_string (ascii : list Z -> bool) (s : list Z) : option bytes :=
  do b <- compile_loop (S (List.length s)) s;
  Some ((if ascii s then [] else [195; 158]) ++ b).
