(** Specification for C10, C11, C21-C23: the game's VarAction2 evaluator (the
    consumer of what Switch writes; NewGRF specification) and the meaning of
    switch expressions.  Nothing here comes from /repo. *)
From Coq Require Import ZArith List Bool.
From Verif Require Import Base RecordsModel Action14Model VA2Model.
Import ListNotations.
Open Scope Z_scope.

(** ** 32-bit numbers: kept as unsigned representatives *)
Definition u32 (x : Z) : Z := x mod 2 ^ 32.
Definition s32 (x : Z) : Z := let u := u32 x in if u <? 2 ^ 31 then u else u - 2 ^ 32.

(** The arithmetic operations of VarAction2 on [last] (the running result) and
    [v] (the new value).  Not stores (0E, 10) and not 0F. *)
Definition arith (op last v : Z) : option Z :=
  match op with
  | 0 => Some (u32 (last + v))
  | 1 => Some (u32 (last - v))
  | 2 => Some (u32 (Z.min (s32 last) (s32 v)))
  | 3 => Some (u32 (Z.max (s32 last) (s32 v)))
  | 4 => Some (Z.min (u32 last) (u32 v))
  | 5 => Some (Z.max (u32 last) (u32 v))
  | 6 => Some (if u32 v =? 0 then u32 last else u32 (Z.quot (s32 last) (s32 v)))
  | 7 => Some (if u32 v =? 0 then u32 last else u32 (Z.rem (s32 last) (s32 v)))
  | 8 => Some (if u32 v =? 0 then u32 last else u32 last / u32 v)
  | 9 => Some (if u32 v =? 0 then u32 last else u32 last mod u32 v)
  | 10 => Some (u32 (last * v))
  | 11 => Some (Z.land (u32 last) (u32 v))
  | 12 => Some (Z.lor (u32 last) (u32 v))
  | 13 => Some (Z.lxor (u32 last) (u32 v))
  | 17 => let n := u32 v mod 32 in (* rotate right *)
          Some (u32 (Z.lor (Z.shiftr (u32 last) n) (Z.shiftl (u32 last) (32 - n))))
  | 18 => Some (if s32 last =? s32 v then 1 else if s32 last <? s32 v then 0 else 2)
  | 19 => Some (if u32 last =? u32 v then 1 else if u32 last <? u32 v then 0 else 2)
  | 20 => Some (u32 (Z.shiftl (u32 last) (u32 v mod 32)))
  | 21 => Some (Z.shiftr (u32 last) (u32 v mod 32))
  | 22 => Some (u32 (Z.shiftr (s32 last) (u32 v mod 32)))
  | _ => None
  end.

(** The operators of the expression language: those of VarAction2 and the
    comparisons <, >, <=, >=, ==, != (signed), hasbit and not-hasbit, which
    have no VarAction2 number (grf/parser.py numbers them -1..-8). *)
Definition b2z (b : bool) : Z := if b then 1 else 0.
Definition xarith (op a b : Z) : option Z :=
  match op with
  | -1 => Some (b2z (s32 a <? s32 b))
  | -2 => Some (b2z (s32 b <? s32 a))
  | -3 => Some (b2z (s32 a <=? s32 b))
  | -4 => Some (b2z (s32 b <=? s32 a))
  | -5 => Some (b2z (s32 a =? s32 b))
  | -6 => Some (b2z (negb (s32 a =? s32 b)))
  | -7 => Some (b2z (Z.testbit (u32 a) (u32 b mod 32)))
  | -8 => Some (b2z (negb (Z.testbit (u32 a) (u32 b mod 32))))
  | _ => arith op a b
  end.

Section Game.
(** Everything else the game knows (vehicles, date, last result, ...). *)
Variable A : Type.

(** Temporary registers, permanent storage, the rest. *)
Record mst := mkM { tmp : Z -> Z; prm : Z -> Z; aux : A }.

(** How the game answers variables and procedure calls. *)
Record game := mkGame {
  getvar : A -> Z -> Z -> Z;         (* variable, parameter (0 if it takes none) *)
  callproc : Z -> mst -> Z * mst }.  (* running sprite group number n *)

Definition fset (f : Z -> Z) (k v : Z) : Z -> Z := fun i => if i =? k then v else f i.

Variable G : game.

(** *** The evaluator *)

(** One adjustment: value = ((variable >> shift) & mask), then [op]. [type] 1
    and 2 add a number and divide / take the remainder. *)
Record adjust := mkAdj {
  j_op : Z; j_var : Z; j_param : Z; j_shift : Z; j_type : Z; j_mask : Z; j_add : Z; j_div : Z }.

Definition has_param (var : Z) : bool := (96 <=? var) && (var <? 128).

(** A variable by number; 7B is handled by the caller. *)
Definition read_direct (var param : Z) (m : mst) : Z * mst :=
  if var =? 26 then (2 ^ 32 - 1, m)
  else if var =? 125 then (u32 (tmp m param), m)
  else if var =? 124 then (u32 (prm m param), m)
  else if var =? 126 then (let '(v, m) := callproc G param m in (u32 v, m))
  else (u32 (getvar G (aux m) var param), m).

(** Through 7B the running result is the parameter; procedures cannot be
    called that way. *)
Definition read_indirect (var last : Z) (m : mst) : Z * mst :=
  if var =? 126 then (u32 (getvar G (aux m) 126 last), m) else read_direct var last m.

Definition load (j : adjust) (last : Z) (m : mst) : Z * mst :=
  let '(v, m) := if j_var j =? 123 then read_indirect (j_param j) last m
                 else read_direct (j_var j) (j_param j) m in
  let v := Z.land (Z.shiftr v (j_shift j)) (j_mask j) in
  let v := if j_type j =? 1 then u32 (Z.quot (s32 (v + j_add j)) (s32 (j_div j)))
           else if j_type j =? 2 then u32 (Z.rem (s32 (v + j_add j)) (s32 (j_div j)))
           else v in
  (v, m).

Definition apply_op (op last v : Z) (m : mst) : Z * mst :=
  if op =? 14 then (last, mkM (fset (tmp m) v last) (prm m) (aux m))
  else if op =? 16 then (last, mkM (tmp m) (fset (prm m) v last) (aux m))
  else match arith op last v with Some r => (r, m) | None => (v, m) end.

Definition exec (j : adjust) (s : Z * mst) : Z * mst :=
  let '(v, m) := load j (fst s) (snd s) in apply_op (j_op j) (fst s) v m.

Fixpoint exec_all (l : list adjust) (s : Z * mst) : Z * mst :=
  match l with [] => s | j :: l => exec_all l (exec j s) end.

(** Reading adjustments of a double-word (89/8A) record: the first has no
    operator byte; bit 5 of the shift byte announces another one. *)
Fixpoint parse_adjusts (fuel : nat) (first : bool) (d : bytes) : option (list adjust * bytes) :=
  match fuel with
  | O => None
  | S fuel =>
      do (op, d) <- (if first then Some (0, d) else rd_B d);
      do (var, d) <- rd_B d;
      do (param, d) <- (if has_param var then rd_B d else Some (0, d));
      do (varadj, d) <- rd_B d;
      do (mask, d) <- rd_I d;
      do (add, dv, d) <- (if varadj / 64 =? 0 then Some (0, 0, d)
                          else do (a, d) <- rd_I d; do (v, d) <- rd_I d; Some (a, v, d));
      let j := mkAdj op var param (varadj mod 32) (varadj / 64) mask add dv in
      if Z.testbit varadj 5 then
        do (l, d) <- parse_adjusts fuel false d; Some (j :: l, d)
      else Some ([j], d)
  end.

(** A parsed record: ranges are (group, low, high), unsigned. *)
Record gswitch := mkGS {
  g_feature : Z; g_id : Z; g_related : bool; g_adjusts : list adjust;
  g_ranges : list (Z * Z * Z); g_default : Z }.

Definition rd_range (d : bytes) : option ((Z * Z * Z) * bytes) :=
  do (g, d) <- rd_H d; do (lo, d) <- rd_I d; do (hi, d) <- rd_I d; Some ((g, lo, hi), d).

Definition game_parse (d : bytes) : option gswitch :=
  do (act, d) <- rd_B d; do! (act =? 2);
  do (f, d) <- rd_B d; do (id, d) <- rd_B d; do (ty, d) <- rd_B d;
  do! ((ty =? 137) || (ty =? 138));
  do (adjs, d) <- parse_adjusts (length d) true d;
  do (n, d) <- rd_B d;
  do (rs, d) <- rd_n rd_range (Z.to_nat n) d;
  do (dflt, d) <- rd_H d;
  do! (match d with [] => true | _ => false end);
  Some (mkGS f id (ty =? 138) adjs rs dflt).

(** The first range containing the result, else the default. *)
Fixpoint pick (rs : list (Z * Z * Z)) (dflt v : Z) : Z :=
  match rs with
  | [] => dflt
  | (g, lo, hi) :: rs => if (lo <=? v) && (v <=? hi) then g else pick rs dflt v
  end.

Definition game_value (g : gswitch) (m : mst) : Z * mst := exec_all (g_adjusts g) (0, m).

(** *** Meaning of expressions *)

(** A user's view of the state: registers the user may name, permanent
    storage, named variables. *)
Record ust := mkU { u_tmp : Z -> Z; u_prm : Z -> Z; u_vars : list (name * Z); u_aux : A }.

(** Registers 80..FF belong to the compiler. *)
Definition user_reg (r : Z) : bool := (r <? 128) || (256 <=? r).
Definition any_reg (r : Z) : bool := true.

(** The registers the code may name: [user_reg] for code given to the
    compiler, [any_reg] for decompiled code. *)
Variable ok : Z -> bool.

(** Operands that are read in place; any other right operand is evaluated
    before the left one. *)
Definition is_simple (e : node) : bool :=
  match e with
  | NValue _ | NVar _ | NVarP _ _ | NGen _ _ _ _ | NCall _ | NCallN _ => true
  | NGenP _ _ _ _ p => match p with NValue v => v <=? 255 | _ => false end
  | NTemp p | NPerm p => match p with NValue _ => true | _ => false end
  | NExpr _ _ _ | NAssign _ _ => false
  end.

(** Reading variable [var] with parameter [p] as a user: not a compiler
    register. *)
Definition u_read (direct : bool) (var p : Z) (s : ust) : option (Z * ust) :=
  if var =? 26 then Some (2 ^ 32 - 1, s)
  else if var =? 125 then do! (ok p); Some (u32 (u_tmp s p), s)
  else if var =? 124 then Some (u32 (u_prm s p), s)
  else if var =? 126 then
    do! direct;
    let '(v, m) := callproc G p (mkM (u_tmp s) (u_prm s) (u_aux s)) in
    Some (u32 v, mkU (tmp m) (prm m) (u_vars s) (aux m))
  else if var =? 123 then None
  else Some (u32 (getvar G (u_aux s) var p), s).

Definition field (shift mask : Z) (r : Z * ust) : Z * ust :=
  (Z.land (Z.shiftr (fst r) shift) mask, snd r).

(** [eval tab subs e s]: the value of [e] and the state after it; [None] when
    evaluation touches a compiler register or reads a name that is neither a
    game variable nor assigned before. *)
Fixpoint eval (tab : name -> option vdata) (subs : list (name * sub_ref)) (e : node) (s : ust)
  : option (Z * ust) :=
  match e with
  | NValue v => Some (u32 v, s)
  | NVar x | NVarP x _ =>
      match tab x with
      | Some d =>
          do r <- u_read true (vd_var d) (match vd_param d with Some p => p | None => 0 end) s;
          Some (field (vd_start d) (Z.ones (vd_size d)) r)
      | None => do v <- dict_get bytes_eqb (u_vars s) x; Some (v, s)
      end
  | NGen var shift mask _ =>
      do r <- u_read true var 0 s; Some (field shift (u32 mask) r)
  | NGenP var shift mask _ (NValue p) =>
      do r <- u_read (p <=? 255) var p s; Some (field shift (u32 mask) r)
  | NGenP var shift mask _ p =>
      do (v, s) <- eval tab subs p s;
      do r <- u_read false var v s; Some (field shift (u32 mask) r)
  | NTemp (NValue p) => u_read true 125 p s
  | NTemp p => do (v, s) <- eval tab subs p s; u_read false 125 v s
  | NPerm (NValue p) => u_read true 124 p s
  | NPerm p => do (v, s) <- eval tab subs p s; u_read false 124 v s
  | NCall n => u_read true 126 n s
  | NCallN x => do r <- dict_get bytes_eqb subs x; u_read true 126 (sub_id r) s
  | NAssign x e =>
      do (v, s) <- eval tab subs e s;
      Some (v, mkU (u_tmp s) (u_prm s) (dict_set bytes_eqb (u_vars s) x v) (u_aux s))
  | NExpr op a b =>
      do (va, vb, s) <-
        (if is_simple b then
           do (va, s) <- eval tab subs a s; do (vb, s) <- eval tab subs b s; Some (va, vb, s)
         else
           do (vb, s) <- eval tab subs b s; do (va, s) <- eval tab subs a s; Some (va, vb, s));
      if op =? 14 then do! (ok vb); Some (va, mkU (fset (u_tmp s) vb va) (u_prm s) (u_vars s) (u_aux s))
      else if op =? 16 then Some (va, mkU (u_tmp s) (fset (u_prm s) vb va) (u_vars s) (u_aux s))
      else do r <- xarith op va vb; Some (r, s)
  end.

(** The lines of a switch: in order, the value is the last line's. *)
Fixpoint eval_lines (tab : name -> option vdata) (subs : list (name * sub_ref)) (l : list node)
  (v : Z) (s : ust) : option (Z * ust) :=
  match l with
  | [] => Some (v, s)
  | e :: l => do (v, s) <- eval tab subs e s; eval_lines tab subs l v s
  end.

(** The reference chosen by a switch for a signed 32-bit value: the first
    range that contains it, else the default. *)
Fixpoint choose (rs : list srange) (dflt : ref_obj) (v : Z) : ref_obj :=
  match rs with
  | [] => dflt
  | r :: rs => if (r_low r <=? v) && (v <=? r_high r) then r_ref r else choose rs dflt v
  end.

(** Expressions covered: operators are the arithmetic and store operators; a
    parameter is given exactly for the variables that take one (60..7F); names
    of the variable table are not assigned to; a right operand is not a
    variable whose parameter is computed or above 255 (each restriction has a
    refuted statement in PropsVA2.v). *)
Definition op_ok (op : Z) : bool := (0 <=? op) && (op <=? 22) && negb (op =? 15).
Definition computed_param (e : node) : bool :=
  match e with NGenP _ _ _ _ p => negb (is_simple e) | _ => false end.
Definition vd_ok (d : vdata) : bool :=
  match vd_param d with Some _ => has_param (vd_var d) | None => negb (has_param (vd_var d)) end.
Fixpoint supported (tab : name -> option vdata) (e : node) : bool :=
  match e with
  | NExpr op a b => op_ok op && supported tab a && supported tab b && negb (computed_param b)
  | NAssign x e => match tab x with None => supported tab e | Some _ => false end
  | NVar x | NVarP x _ => match tab x with None => true | Some d => vd_ok d end
  | NGen var _ _ _ => negb (has_param var)
  | NGenP var _ _ _ p => supported tab p && (negb (is_simple e) || has_param var)
  | NTemp e | NPerm e => supported tab e
  | NValue _ | NCall _ | NCallN _ => true
  end.

(** *** Assumption on procedures: they leave the compiler's registers alone
    and do not depend on them. *)
Definition agree (m1 m2 : mst) : Prop :=
  (forall r, user_reg r = true -> tmp m1 r = tmp m2 r) /\ (forall r, prm m1 r = prm m2 r) /\ aux m1 = aux m2.
Definition calls_clean : Prop := forall n m1 m2, agree m1 m2 ->
  fst (callproc G n m1) = fst (callproc G n m2) /\
  agree (snd (callproc G n m1)) (snd (callproc G n m2)) /\
  (forall r, user_reg r = false -> tmp (snd (callproc G n m1)) r = tmp m1 r).
End Game.
Arguments mkM {A}. Arguments tmp {A}. Arguments prm {A}. Arguments aux {A}.
Arguments mkGame {A}. Arguments getvar {A}. Arguments callproc {A}.
Arguments read_direct {A}. Arguments read_indirect {A}. Arguments load {A}. Arguments apply_op {A}.
Arguments exec {A}. Arguments exec_all {A}. Arguments game_value {A}.
Arguments mkU {A}. Arguments u_tmp {A}. Arguments u_prm {A}. Arguments u_vars {A}. Arguments u_aux {A}.
Arguments u_read {A}. Arguments field {A}. Arguments eval {A}. Arguments eval_lines {A}.
Arguments agree {A}. Arguments calls_clean {A}.

(** ** Specification for C22: a history of requests to the allocator.
    [held] are the temporaries handed out and not yet returned, [names] the
    names that were given a register. *)
Inductive history (subs : list (name * sub_ref)) : list Z -> list (name * Z) -> ctx -> Prop :=
| h_start : history subs [] [] (ctx_init 128 subs)
| h_reserve : forall held names c r c', history subs held names c ->
    reserve_register c = Some (r, c') -> history subs (r :: held) names c'
| h_release : forall held names c l1 r l2 c', history subs held names c -> held = l1 ++ r :: l2 ->
    release_register c r = Some c' -> history subs (l1 ++ l2) names c'
| h_name_new : forall held names c x r c', history subs held names c -> ~ In x (map fst names) ->
    reserve_variable c x = Some (r, c') -> history subs held ((x, r) :: names) c'
| h_name_old : forall held names c x r c', history subs held names c -> In x (map fst names) ->
    reserve_variable c x = Some (r, c') -> history subs held names c'.
(** The registers in use. *)
Definition taken (held : list Z) (names : list (name * Z)) : list Z := held ++ map snd names.

(** ** Specification for C23: what reading back the printed form does to
    comparison operators (the parser builds [mk_binop]). *)
Fixpoint lower (e : node) : node :=
  match e with
  | NExpr op a b => mk_binop op (lower a) (lower b)
  | NAssign x e => NAssign x (lower e)
  | NVarP x p => NVarP x (lower p)
  | NGenP v s m adj p => NGenP v s m adj (lower p)
  | NTemp r => NTemp (lower r)
  | NPerm r => NPerm (lower r)
  | e => e
  end.
(** Only operators VarAction2 has: what the decoder builds. *)
Fixpoint plain (e : node) : bool :=
  match e with
  | NExpr op a b => (0 <=? op) && plain a && plain b
  | NAssign _ e | NVarP _ e | NGenP _ _ _ _ e | NTemp e | NPerm e => plain e
  | _ => true
  end.

(** ** Specification for "accepted" (C21): what the user must ensure so that
    compilation succeeds. *)
(** The constants fit their fields, every name read is a game variable of the
    feature or one of [xs] (assigned in an earlier line), every subroutine
    name is bound to an action with an id. *)
Definition vd_fits (d : vdata) : bool :=
  (0 <=? vd_var d) && (vd_var d <? 256) && (0 <=? vd_start d) && (vd_start d <? 32) && (0 <=? vd_size d) &&
  match vd_param d with Some p => (0 <=? p) && (p <? 256) | None => true end.
Definition name_in (x : name) (xs : list name) : bool := existsb (bytes_eqb x) xs.
Fixpoint accepted (tab : name -> option vdata) (subs : list (name * sub_ref)) (xs : list name) (e : node) : bool :=
  match e with
  | NExpr op a b => op_ok op && accepted tab subs xs a && accepted tab subs xs b
  | NAssign x e => accepted tab subs xs e
  | NValue _ => true
  | NVar x | NVarP x _ => match tab x with Some d => vd_fits d | None => name_in x xs end
  | NGen var sh _ adj => (0 <=? var) && (var <? 256) && (0 <=? sh) && (sh <? 32) &&
      match adj with None => true | Some _ => false end
  | NGenP var sh _ adj p => (0 <=? var) && (var <? 256) && (0 <=? sh) && (sh <? 32) &&
      (match adj with None => true | Some _ => false end) &&
      match p with NValue v => (0 <=? v) && (v <? 2 ^ 32) | _ => accepted tab subs xs p end
  | NTemp p | NPerm p => match p with NValue v => (0 <=? v) && (v <? 256) | _ => accepted tab subs xs p end
  | NCall n => (0 <=? n) && (n <? 256)
  | NCallN x => match dict_get bytes_eqb subs x with
                | Some (SubAct i) => (0 <=? i) && (i <? 256) | _ => false end
  end.
Fixpoint assigned (e : node) : list name :=
  match e with
  | NExpr _ a b => assigned a ++ assigned b
  | NAssign x e => assigned e ++ [x]
  | NVarP _ _ => []
  | NGenP _ _ _ _ e | NTemp e | NPerm e => assigned e
  | _ => []
  end.
Fixpoint accepted_lines (tab : name -> option vdata) (subs : list (name * sub_ref)) (xs : list name) (l : list node) : bool :=
  match l with
  | [] => true
  | e :: l => accepted tab subs xs e && accepted_lines tab subs (xs ++ assigned e) l
  end.
(** How many intermediate results are alive at once. *)
Fixpoint temporaries (e : node) : Z :=
  match e with
  | NExpr _ a b => if is_simple b then Z.max (temporaries a) (temporaries b)
                   else Z.max (temporaries b) (1 + temporaries a)
  | NAssign _ e | NGenP _ _ _ _ e | NTemp e | NPerm e => temporaries e
  | _ => 0
  end.

(** A range across zero takes two entries of the record. *)
Definition entries (rs : list srange) : Z :=
  fold_right Z.add 0 (map (fun r => if (r_low r <? 0) && (0 <=? r_high r) then 2 else 1) rs).
Definition range_ok (r : srange) : Prop :=
  -2 ^ 31 <= r_low r < 2 ^ 31 /\ -2 ^ 31 <= r_high r < 2 ^ 31 /\ 0 <= get_ref_id (r_ref r) < 65536.
(** All names assigned in the lines. *)
Definition assigned_lines (l : list node) : list name := concat (map assigned l).
Definition switch_accepted (tab : name -> option vdata) (sw : switch) (ns : list name) : Prop :=
  0 <= sw_feature sw < 256 /\ 0 <= sw_ref_id sw < 256 /\ sw_lines sw <> [] /\
  accepted_lines tab (sw_subs sw) [] (sw_lines sw) = true /\
  incl (assigned_lines (sw_lines sw)) ns /\ Forall (fun e => len ns + temporaries e <= 128) (sw_lines sw) /\
  Forall range_ok (sw_ranges sw) /\ entries (sw_ranges sw) < 256 /\ 0 <= get_ref_id (sw_default sw) < 65536.
