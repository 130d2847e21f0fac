(** When printed switch code can be expected to read back, and as what.
    Independent of the lexer and the parser. *)
From Coq Require Import ZArith List Bool String.
From Verif Require Import Base VA2Model VA2Vars SpecVA2.
Import ListNotations.
Open Scope string_scope.
Open Scope list_scope.
Open Scope Z_scope.

(** A name the language can have: a letter or _, then letters, digits, _. *)
Definition letter (c : Z) : bool := ((97 <=? c) && (c <=? 122)) || ((65 <=? c) && (c <=? 90)) || (c =? 95).
Definition digit (c : Z) : bool := (48 <=? c) && (c <=? 57).
Definition identifier (x : name) : bool :=
  match x with [] => false | c :: r => letter c && forallb (fun c => letter c || digit c) r end.

(** Expressions the language has a notation for: no unsigned division or
    remainder, no hasbit, no variable with a parameter, no assignment to a
    name (it has a notation but is never printed); stores only to constant
    registers; numbers of 32 bits. *)
Definition word (v : Z) : bool := (- 2 ^ 31 <=? v) && (v <? 2 ^ 32).
Definition register (v : Z) : bool := (0 <=? v) && (v <? 2 ^ 31).
Definition adjustment (adj : option (Z * Z * Z)) : bool :=
  match adj with None => true | Some (t, _, _) => (t =? 1) || (t =? 2) end.
Fixpoint printable (e : node) : bool :=
  match e with
  | NExpr op a b =>
    if (op =? 14) || (op =? 16) then
      printable a && match b with NValue v => register v | _ => false end
    else existsb (Z.eqb op) [0; 1; 2; 3; 4; 5; 6; 7; 10; 11; 12; 13; 17; 18; 19; 20; 21; 22; -1; -2; -3; -4; -5; -6]
         && printable a && printable b
  | NValue v => word v
  | NVar x | NCallN x => identifier x
  | NGen var _ mask adj => (0 <=? var) && (0 <=? mask) && adjustment adj
  | NGenP var _ mask adj p => (0 <=? var) && (0 <=? mask) && adjustment adj && printable p
  | NTemp (NValue v) => register v
  | NTemp r | NPerm r => printable r
  | NCall n => (0 <=? n) && (n <? 256)
  | NAssign _ _ | NVarP _ _ => false
  end.

(** Bitwise operators and shifts are printed without brackets when one is the
    left operand of another; that is right only if the inner one does not
    bind less. *)
Definition bit_level (op : Z) : option Z :=
  if existsb (Z.eqb op) [20; 21; 22] then Some 2
  else if op =? 12 then Some 3 else if op =? 13 then Some 4 else if op =? 11 then Some 5 else None.
Fixpoint grouped (e : node) : bool :=
  match e with
  | NExpr op a b =>
    grouped a && grouped b &&
    match bit_level op, a with
    | Some l, NExpr op' _ _ => match bit_level op' with Some l' => l <=? l' | None => true end
    | _, _ => true
    end
  | NAssign _ e | NVarP _ e | NGenP _ _ _ _ e | NTemp e | NPerm e => grouped e
  | _ => true
  end.

(** Operators of one line of the precedence table whose right operand is
    printed without brackets: a + (b - c) comes out as (a + b) - c. *)
Definition line_of (op : Z) : option Z :=
  if existsb (Z.eqb op) [0; 1] then Some 5
  else if existsb (Z.eqb op) [6; 7; 10] then Some 6
  else if existsb (Z.eqb op) [-1; -2; -3; -4; -5; -6] then Some 3 else None.
Definition moves (op op' : Z) : bool :=
  negb (op =? 1) && match line_of op, line_of op' with Some l, Some l' => l =? l' | _, _ => false end.
Fixpoint graft (op : Z) (a b : node) : node :=
  match b with
  | NExpr op' b1 b2 => if moves op op' then NExpr op' (graft op a b1) b2 else NExpr op a b
  | _ => NExpr op a b
  end.
Fixpoint regroup (e : node) : node :=
  match e with
  | NExpr op a b => graft op (regroup a) (regroup b)
  | NAssign x e => NAssign x (regroup e)
  | NVarP x p => NVarP x (regroup p)
  | NGenP v s m adj p => NGenP v s m adj (regroup p)
  | NTemp r => NTemp (regroup r)
  | NPerm r => NPerm (regroup r)
  | e => e
  end.

(** Numbers come back as signed 32-bit numbers. *)
Fixpoint signed (e : node) : node :=
  match e with
  | NExpr op a b => NExpr op (signed a) (signed b)
  | NValue v => NValue (s32 v)
  | NAssign x e => NAssign x (signed e)
  | NVarP x p => NVarP x (signed p)
  | NGenP v s m adj p => NGenP v s m adj (signed p)
  | NTemp r => NTemp (signed r)
  | NPerm r => NPerm (signed r)
  | e => e
  end.

(** No regrouping needed. *)
Fixpoint settled (e : node) : bool :=
  match e with
  | NExpr op a b => settled a && settled b && match b with NExpr op' _ _ => negb (moves op op') | _ => true end
  | NAssign _ e | NVarP _ e | NGenP _ _ _ _ e | NTemp e | NPerm e => settled e
  | _ => true
  end.

(** Expressions without stores and procedure calls. *)
Fixpoint quiet (e : node) : bool :=
  match e with
  | NExpr op a b => negb (op =? 14) && negb (op =? 16) && quiet a && quiet b
  | NValue _ | NVar _ | NVarP _ _ => true
  | NGen var _ _ _ => negb (var =? 126)
  | NGenP var _ _ _ p => negb (var =? 126) && quiet p
  | NTemp r | NPerm r => quiet r
  | NCall _ | NCallN _ | NAssign _ _ => false
  end.
(** A number given directly as a parameter or register. *)
Definition small_const (e : node) : bool := match e with NValue v => register v | _ => true end.
(** Regrouping is harmless in sums and in products without division. *)
Fixpoint chain (op : Z) (b : node) : bool :=
  match b with
  | NExpr op' b1 _ => if moves op op' then ((op =? 0) || ((op =? 10) && (op' =? 10))) && chain op b1 else true
  | _ => true
  end.
Fixpoint harmless (e : node) : bool :=
  match e with
  | NExpr op a b => harmless a && harmless b &&
      match b with
      | NExpr op' _ _ => if moves op op' then quiet a && quiet b && chain op (regroup b) else true
      | _ => true
      end
  | NGenP _ _ _ _ e | NTemp e | NPerm e => small_const e && harmless e
  | NAssign _ e => harmless e
  | _ => true
  end.
