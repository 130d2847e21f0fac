(** The text form of switch code: format methods of the nodes and the lexer
    and grammar of grf/parser.py.  Definitions only.  Text is a list of
    character codes; only ASCII is modelled. *)
From Coq Require Import ZArith List Bool String.
From Verif Require Import Base CommonModel RecordsModel Action14Model DecodeModel VA2Model VA2Vars.
Import ListNotations.
Open Scope string_scope.
Open Scope list_scope.
Open Scope Z_scope.

(** ---- printing ---- *)

(** str(i). *)
Definition str_int (i : Z) : bytes := if i <? 0 then 45 :: str_nat (- i) else str_nat i.
(** '{:x}'.format(i) and '{:02x}'.format(i) for i >= 0, with '-' and no
    padding to speak of for i < 0 ('{:02x}'.format(-5) is '-5'). *)
Definition hex_digit (d : Z) : Z := if d <? 10 then 48 + d else 87 + d.
Fixpoint hex_digits (fuel : nat) (n : Z) : bytes :=
  match fuel with
  | O => []
  | S fuel => if n <? 16 then [hex_digit n] else hex_digits fuel (n / 16) ++ [hex_digit (n mod 16)]
  end.
Definition hex_nat (n : Z) : bytes := hex_digits (S (Z.to_nat n)) n.
Definition fmt_x (i : Z) : bytes := if i <? 0 then 45 :: hex_nat (- i) else hex_nat i.
Definition fmt_02x (i : Z) : bytes :=
  let s := fmt_x i in if (List.length s <? 2)%nat then 48 :: s else s.

(** 58-91 OPERATORS: how the operator is written, its priority and whether the
    right operand is bracketed at equal priority. *)
Inductive opform := Infix (s : string) | Func (s : string) | Store (s : string).
Definition operators (op : Z) : option (opform * Z * bool) :=
  match op with
  | 0 => Some (Infix " + ", 5, false)
  | 1 => Some (Infix " - ", 5, true)
  | 2 => Some (Func "min", 7, false)
  | 3 => Some (Func "max", 7, false)
  | 4 => Some (Func "minu", 7, false)
  | 5 => Some (Func "maxu", 7, false)
  | 6 => Some (Infix " / ", 6, false)
  | 7 => Some (Infix " % ", 6, false)
  | 8 => Some (Infix " u/ ", 6, false)
  | 9 => Some (Infix " u% ", 6, false)
  | 10 => Some (Infix " * ", 6, false)
  | 11 => Some (Infix " & ", 4, true)
  | 12 => Some (Infix " | ", 4, true)
  | 13 => Some (Infix " ^ ", 4, true)
  | 14 => Some (Store "TEMP", 2, true)
  | 16 => Some (Store "PERM", 2, true)
  | 17 => Some (Func "rot", 7, false)
  | 18 => Some (Func "cmp", 7, false)
  | 19 => Some (Func "cmpu", 7, false)
  | 20 => Some (Infix " << ", 4, true)
  | 21 => Some (Infix " +>> ", 4, true)
  | 22 => Some (Infix " >> ", 4, true)
  | -1 => Some (Infix " < ", 3, false)
  | -2 => Some (Infix " > ", 3, false)
  | -3 => Some (Infix " <= ", 3, false)
  | -4 => Some (Infix " >= ", 3, false)
  | -5 => Some (Infix " == ", 3, false)
  | -6 => Some (Infix " != ", 3, false)
  | -7 => Some (Func "hasbit", 7, false)
  | -8 => Some (Func "!hasbit", 7, false)
  | _ => None (* OP_INIT (assert) and unknown numbers *)
  end.

(** 323-330: the tail of GenericVar.format. *)
Definition adj_str (adj : option (Z * Z * Z)) : bytes :=
  match adj with
  | Some (t, add, dm) =>
    if t =? 1 then nm ", add=" ++ str_int add ++ nm ", div=" ++ str_int dm
    else if t =? 2 then nm ", add=" ++ str_int add ++ nm ", mod=" ++ str_int dm else []
  | None => []
  end.

(** The format methods (157-176, 238-239, 254-255, 275-281, 323-330, 372-375,
    403-404, 433-434, 446-447); None when Python raises.  [hx]: constant
    registers of Temp are plain integers and not nodes (the model's NTemp
    does not keep the difference).  AssignVariable.format misspells its
    attribute and always raises. *)
Definition brackets (c : bool) (s : bytes) : bytes := if c then 40 :: s ++ [41] else s.
Fixpoint fmt (hx : bool) (e : node) (parent : Z) : option bytes :=
  match e with
  | NExpr op a b =>
    match operators op with
    | None => None
    | Some (form, prio, br) =>
      match form with
      | Infix s =>
        do x <- fmt hx a (prio - 1);
        do y <- fmt hx b (if br then prio else prio - 1);
        Some (brackets (prio <=? parent) (x ++ nm s ++ y))
      | Func f =>
        do x <- fmt hx a (prio - 1);
        do y <- fmt hx b (if br then prio else prio - 1);
        Some (brackets (prio <=? parent) (nm f ++ 40 :: x ++ nm ", " ++ y ++ [41]))
      | Store r =>
        do x <- fmt hx a (prio - 1);
        match b with
        | NValue v => Some (brackets (prio <=? parent) (nm r ++ nm "[0x" ++ fmt_02x v ++ nm "] = " ++ x))
        | _ => None
        end
      end
    end
  | NAssign _ _ => None
  | NValue v => Some (str_int (utoi32 v))
  | NVar x => Some x
  | NVarP x p => do s <- fmt hx p 0; Some (x ++ 40 :: s ++ [41])
  | NGen var sh mk adj =>
    Some (nm "var(0x" ++ fmt_02x var ++ nm ", shift=" ++ str_int sh ++ nm ", and=0x" ++ fmt_x mk ++ adj_str adj ++ [41])
  | NGenP var sh mk adj p =>
    do s <- fmt hx p 0;
    Some (nm "var(0x" ++ fmt_02x var ++ nm ", param=(" ++ s ++ nm "), shift=" ++ str_int sh ++ nm ", and=0x" ++ fmt_x mk
          ++ adj_str adj ++ [41])
  | NTemp r =>
    match hx, r with
    | true, NValue v => Some (nm "TEMP[0x" ++ fmt_02x v ++ [93])
    | _, _ => do s <- fmt hx r 0; Some (nm "TEMP[" ++ s ++ [93])
    end
  | NPerm r => do s <- fmt hx r 0; Some (nm "PERM[" ++ s ++ [93])
  | NCall n => Some (nm "call(" ++ str_int n ++ [41])
  | NCallN x => Some (x ++ [40; 41])
  end.

(** decompile.py:622 '\n'.join(x.format() for x in code). *)
Fixpoint fmt_lines (hx : bool) (l : list node) : option bytes :=
  match l with
  | [] => Some []
  | [e] => fmt hx e 0
  | e :: r => do s <- fmt hx e 0; do t <- fmt_lines hx r; Some (s ++ 10 :: t)
  end.

(** ---- the lexer: 470-535 ---- *)
Inductive token :=
| TName (x : name) | TNum (n : Z) | TNewline
| TOp (op : Z)        (* ADD .. NEQ, by the operator the parser makes of it: 603-621 *)
| TAssign | TComma | TLp | TRp | TLb | TRb.

Definition is_digit (c : Z) : bool := (48 <=? c) && (c <=? 57).
Definition is_bin (c : Z) : bool := (48 <=? c) && (c <=? 49).
Definition is_hex (c : Z) : bool := is_digit c || ((97 <=? c) && (c <=? 102)) || ((65 <=? c) && (c <=? 70)).
Definition is_alpha (c : Z) : bool := ((97 <=? c) && (c <=? 122)) || ((65 <=? c) && (c <=? 90)) || (c =? 95).
Definition hex_val (c : Z) : Z := if c <=? 57 then c - 48 else if c <=? 70 then c - 55 else c - 87.

(** The token being read. *)
Inductive lstate := LNone | LName (x : name) | LDec (n : Z) | LHex (n : Z) | LBin (n : Z) | LNewl.
Definition flush (st : lstate) : list token :=
  match st with
  | LNone => []
  | LName x => [TName x]
  | LDec n | LHex n | LBin n => [TNum n]
  | LNewl => [TNewline]
  end.
Definition continue (st : lstate) (c : Z) : option lstate :=
  match st with
  | LNone => None
  | LName x => if is_alpha c || is_digit c then Some (LName (x ++ [c])) else None
  | LDec n => if is_digit c then Some (LDec (10 * n + (c - 48))) else None
  | LHex n => if is_hex c then Some (LHex (16 * n + hex_val c)) else None
  | LBin n => if is_bin c then Some (LBin (2 * n + (c - 48))) else None
  | LNewl => if c =? 10 then Some LNewl else None
  end.
(** PLY tries the function rules first, then the others by decreasing length
    of their regular expression; that is the longest token in each case.
    Blanks are skipped, and so is a character no rule matches (533-535). *)
Fixpoint lex (st : lstate) (s : bytes) : list token :=
  match s with
  | [] => flush st
  | c :: r =>
    match continue st c with
    | Some st => lex st r
    | None =>
      flush st ++
      (if is_digit c then
         match r with
         | x :: ((h :: _) as r') =>
           if (c =? 48) && (x =? 120) && is_hex h then lex (LHex 0) r'
           else if (c =? 48) && (x =? 98) && is_bin h then lex (LBin 0) r'
           else lex (LDec (c - 48)) r
         | _ => lex (LDec (c - 48)) r
         end
       else if is_alpha c then lex (LName [c]) r
       else if c =? 10 then lex LNewl r
       else
         match c with
         | 43 => match r with 62 :: 62 :: r => TOp OP_SHRU :: lex LNone r | _ => TOp OP_ADD :: lex LNone r end
         | 45 => TOp OP_SUB :: lex LNone r
         | 42 => TOp OP_MUL :: lex LNone r
         | 47 => TOp OP_DIV :: lex LNone r
         | 37 => TOp OP_MOD :: lex LNone r
         | 38 => TOp OP_AND :: lex LNone r
         | 124 => TOp OP_OR :: lex LNone r
         | 94 => TOp OP_XOR :: lex LNone r
         | 62 => match r with
                 | 62 :: r => TOp OP_SHR :: lex LNone r
                 | 61 :: r => TOp OPE_GE :: lex LNone r
                 | _ => TOp OPE_GT :: lex LNone r
                 end
         | 60 => match r with
                 | 60 :: r => TOp OP_SHL :: lex LNone r
                 | 61 :: r => TOp OPE_LE :: lex LNone r
                 | _ => TOp OPE_LT :: lex LNone r
                 end
         | 61 => match r with 61 :: r => TOp OPE_EQ :: lex LNone r | _ => TAssign :: lex LNone r end
         | 33 => match r with 61 :: r => TOp OPE_NEQ :: lex LNone r | _ => lex LNone r end
         | 44 => TComma :: lex LNone r
         | 40 => TLp :: lex LNone r
         | 41 => TRp :: lex LNone r
         | 91 => TLb :: lex LNone r
         | 93 => TRb :: lex LNone r
         | _ => lex LNone r
         end)
    end
  end.

(** ---- the grammar: 540-755 ---- *)

(** 540-550 precedence: the higher binds tighter; ASSIGN is 0. *)
Definition gprec (op : Z) : Z :=
  if memz op [OPE_LT; OPE_GT; OPE_LE; OPE_GE; OPE_EQ; OPE_NEQ] then 1
  else if memz op [OP_SHRU; OP_SHR; OP_SHL] then 2
  else if op =? OP_OR then 3
  else if op =? OP_XOR then 4
  else if op =? OP_AND then 5
  else if memz op [OP_ADD; OP_SUB] then 6
  else 7.

(** The parser's stack: what was read of the rules that are not complete.
    PLY builds an LALR(1) automaton from the rules; its only conflicts are
    between an operator and a pending rule ending in an expression, decided
    by precedence. *)
Inductive frame :=
| FBin (op : Z) (a : node)                    (* expression OP . *)
| FParen                                      (* LPAREN . *)
| FIndex (x : name)                           (* NAME LBRACKET . *)
| FStore (op : Z) (reg : Z)                   (* NAME LBRACKET expression RBRACKET ASSIGN . *)
| FSet (x : name)                             (* NAME ASSIGN . *)
| FArg1 (f : name)                            (* NAME LPAREN . *)
| FArg2 (f : name) (a : node)                 (* NAME LPAREN expression COMMA . *)
| FNamed (f : name) (a : node) (args : list (name * node)) (x : name).
                                              (* .. COMMA NAME ASSIGN . *)

(** Reduce pending rules of precedence p or more. *)
Fixpoint reduce (p : Z) (st : list frame) (v : node) : list frame * node :=
  match st with
  | FBin op a :: st' => if p <=? gprec op then reduce p st' (mk_binop op a v) else (st, v)
  | FStore op reg :: st' => if p <=? 0 then reduce p st' (NExpr op v (NValue reg)) else (st, v)
  | FSet x :: st' => if p <=? 0 then reduce p st' (NAssign x v) else (st, v)
  | _ => (st, v)
  end.

(** 637-652: TEMP[..] and PERM[..] read and assigned. *)
Definition storage (x : name) (v : node) : option node :=
  if bytes_eqb x (nm "TEMP") then Some (NTemp v)
  else if bytes_eqb x (nm "PERM") then Some (NPerm v) else None.
Definition storage_op (x : name) : option Z :=
  if bytes_eqb x (nm "TEMP") then Some OP_TSTO
  else if bytes_eqb x (nm "PERM") then Some OP_PSTO else None.
(** 664-667 call_1. *)
Definition call_1 (x : name) (n : Z) : option node :=
  do! (bytes_eqb x (nm "call")); do! ((0 <=? n) && (n <? 256)); Some (NCall n).
(** 670-682 call_2. *)
Definition functions : list (name * Z) :=
  [(nm "min", OP_MIN); (nm "max", OP_MAX); (nm "minu", OP_MINU); (nm "maxu", OP_MAXU); (nm "rot", OP_ROT);
   (nm "cmp", OP_CMP); (nm "cmpu", OP_CMPU)].
Definition call_2 (x : name) (a b : node) : option node :=
  do op <- dict_get bytes_eqb functions x; Some (NExpr op a b).
(** 685-705 parse_divmod. *)
Definition parse_divmod (l : list (name * node)) : option (option (Z * Z * Z)) :=
  match l with
  | [] => Some None
  | [(n1, v1); (n2, v2)] =>
    do! (bytes_eqb n1 (nm "add"));
    do a <- const_eval v1;
    if bytes_eqb n2 (nm "div") then do d <- const_eval v2; Some (Some (1, a, d))
    else if bytes_eqb n2 (nm "mod") then do d <- const_eval v2; Some (Some (2, a, d)) else None
  | _ => None
  end.
(** 708-744: var(..) with and without param=. *)
Definition shift_and (n1 n2 : name) (v1 v2 : node) : option (Z * Z) :=
  do! (bytes_eqb n1 (nm "shift") && bytes_eqb n2 (nm "and"));
  do s <- const_eval v1; do m <- const_eval v2; Some (s, m).
Definition var_call (f : name) (a : node) (args : list (name * node)) : option node :=
  do! (bytes_eqb f (nm "var"));
  do var <- const_eval a;
  match args with
  | (n1, v1) :: (n2, v2) :: (n3, v3) :: rest =>
    if (List.length args =? 3)%nat || (List.length args =? 5)%nat then
      do! (bytes_eqb n1 (nm "param"));
      do (s, m) <- shift_and n2 n3 v2 v3;
      do adj <- parse_divmod rest;
      Some (NGenP var s m adj v1)
    else
      do (s, m) <- shift_and n1 n2 v1 v2;
      do adj <- parse_divmod ((n3, v3) :: rest);
      Some (NGen var s m adj)
  | [(n1, v1); (n2, v2)] =>
    do (s, m) <- shift_and n1 n2 v1 v2; Some (NGen var s m None)
  | _ => None
  end.
(** A closing bracket after ".., x = v": AssignVariable as the second argument
    of a function if it is the only named one. *)
Definition close_named (f : name) (a : node) (args : list (name * node)) (x : name) (v : node) : option node :=
  match args with
  | [] => call_2 f a (NAssign x v)
  | _ => var_call f a (args ++ [(x, v)])
  end.

(** [cur] is the expression before the next token, if there is one; [acc] the
    lines so far.  None: a syntax error is reported or Python raises (after a
    syntax error PLY drops everything read so far and goes on; that result is
    not modelled).  GenericVar asserts nothing the grammar does not imply. *)
Fixpoint parse (ts : list token) (st : list frame) (cur : option node) (acc : list node) {struct ts} : option (list node) :=
  match ts with
  | [] =>
    match cur with
    | None => match st with [] => Some acc | _ => None end
    | Some v => match reduce 0 st v with ([], w) => Some (acc ++ [w]) | _ => None end
    end
  | t :: r =>
    match cur with
    | None =>
      match t with
      | TNewline => match st with [] => parse r [] None acc | _ => None end       (* 553-571 *)
      | TNum n => parse r st (Some (NValue n)) acc                                (* 574 *)
      | TOp op =>                                                                 (* 579 *)
        if op =? OP_SUB then match r with TNum n :: r => parse r st (Some (NValue (- n))) acc | _ => None end else None
      | TLp => parse r (FParen :: st) None acc                                    (* 747 *)
      | TName x =>
        match r with
        | TLb :: r => parse r (FIndex x :: st) None acc
        | TAssign :: r => parse r (FSet x :: st) None acc
        | TLp :: TRp :: r => parse r st (Some (NCallN x)) acc                     (* 658 *)
        | TLp :: TNum n :: TRp :: r => do v <- call_1 x n; parse r st (Some v) acc
        | TLp :: r => parse r (FArg1 x :: st) None acc
        | _ => parse r st (Some (NVar x)) acc                                     (* 752 *)
        end
      | _ => None
      end
    | Some v =>
      match t with
      | TOp op => let '(st, w) := reduce (gprec op) st v in parse r (FBin op w :: st) None acc   (* 584 *)
      | TNewline => match reduce 0 st v with ([], w) => parse r [] None (acc ++ [w]) | _ => None end
      | TRb =>
        match reduce 0 st v with
        | (FIndex x :: st, w) =>
          match r with
          | TAssign :: r => do op <- storage_op x; do reg <- const_eval w; parse r (FStore op reg :: st) None acc
          | _ => do e <- storage x w; parse r st (Some e) acc
          end
        | _ => None
        end
      | TComma =>
        match reduce 0 st v with
        | (FArg1 f :: st, w) =>
          match r with
          | TName x :: TAssign :: r => parse r (FNamed f w [] x :: st) None acc
          | _ => parse r (FArg2 f w :: st) None acc
          end
        | (FNamed f a args x :: st, w) =>
          match r with
          | TName y :: TAssign :: r => parse r (FNamed f a (args ++ [(x, w)]) y :: st) None acc
          | _ => None
          end
        | _ => None
        end
      | TRp =>
        match reduce 0 st v with
        | (FParen :: st, w) => parse r st (Some w) acc
        | (FArg2 f a :: st, w) => do e <- call_2 f a w; parse r st (Some e) acc
        | (FNamed f a args x :: st, w) => do e <- close_named f a args x w; parse r st (Some e) acc
        | _ => None
        end
      | _ => None
      end
    end
  end.

(** 774-785 parse_code. *)
Definition parse_code (s : bytes) : option (list node) := parse (lex LNone s) [] None [].
