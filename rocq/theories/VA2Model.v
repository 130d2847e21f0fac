(** Model of the switch-code compiler: grf/parser.py nodes and
    grf/actions.py CodeContext / Switch.  Definitions only.

    A NAME token is the list of its characters' codes.  The variable table
    VA2_VARS[feature] (grf/va2vars.py) is a function argument [tab]; the real
    tables are in VA2Vars.v.  [compile] returns (is_value, code, context) and
    [None] when Python raises. *)
From Coq Require Import ZArith List Bool.
From Verif Require Import Base CommonModel RecordsModel Action14Model.
Import ListNotations.
Open Scope Z_scope.

Definition name := list Z.

(** grf/parser.py:11-33 *)
Definition OP_ADD := 0.   Definition OP_SUB := 1.   Definition OP_MIN := 2.   Definition OP_MAX := 3.
Definition OP_MINU := 4.  Definition OP_MAXU := 5.  Definition OP_DIV := 6.   Definition OP_MOD := 7.
Definition OP_DIVU := 8.  Definition OP_MODU := 9.  Definition OP_MUL := 10.  Definition OP_AND := 11.
Definition OP_OR := 12.   Definition OP_XOR := 13.  Definition OP_TSTO := 14. Definition OP_INIT := 15.
Definition OP_PSTO := 16. Definition OP_ROT := 17.  Definition OP_CMP := 18.  Definition OP_CMPU := 19.
Definition OP_SHL := 20.  Definition OP_SHRU := 21. Definition OP_SHR := 22.
(** grf/parser.py:35 *)
Definition OPE_LT := -1. Definition OPE_GT := -2. Definition OPE_LE := -3. Definition OPE_GE := -4.
Definition OPE_EQ := -5. Definition OPE_NEQ := -6. Definition OPE_HASBIT := -7. Definition OPE_NHASBIT := -8.

(** The node classes of grf/parser.py:109-470.  A node with an optional
    [param] is two constructors; Temp/Perm with a plain int register is
    [NTemp (NValue n)] (same code; only [simplify] would raise on an int). *)
Inductive node :=
| NExpr (op : Z) (a b : node)                     (* 145 Expr *)
| NAssign (x : name) (e : node)                   (* 231 AssignVariable *)
| NValue (v : Z)                                  (* 248 Value *)
| NVar (x : name)                                 (* 267 Var, param=None *)
| NVarP (x : name) (param : node)                 (* 267 Var with param *)
| NGen (var shift mask : Z) (adj : option (Z * Z * Z))              (* 313 GenericVar, param=None *)
| NGenP (var shift mask : Z) (adj : option (Z * Z * Z)) (param : node) (* adj = (type, add_val, divmod_val) *)
| NTemp (reg : node)                              (* 361 Temp *)
| NPerm (reg : node)                              (* 396 Perm *)
| NCall (sub : Z)                                 (* 430 Call *)
| NCallN (sub : name).                            (* 443 CallByName *)

(** An entry of VA2_VARS[feature]: 'var', 'start', 'size', optional 'param'. *)
Record vdata := mkVD { vd_var : Z; vd_start : Z; vd_size : Z; vd_param : option Z }.

(** What a subroutine name is bound to: grf/parser.py:455-458. *)
Inductive sub_ref := SubInt (n : Z) | SubAct (ref_id : Z).
Definition sub_id (r : sub_ref) : Z :=
  match r with SubInt n => Z.lor n 32768 | SubAct i => i end.

(** grf/actions.py:1666-1698 CodeContext ([subroutines=None] is []). *)
Record ctx := mkCtx {
  c_subs : list (name * sub_ref); c_min : Z; c_used : list Z; c_vars : list (name * Z) }.

(** range(lo, hi) *)
Definition zrange (lo hi : Z) : list Z :=
  map (fun i => lo + Z.of_nat i) (seq 0 (Z.to_nat (hi - lo))).
Definition memz (x : Z) (l : list Z) : bool := existsb (Z.eqb x) l.

(** 1667-1671 *)
Definition ctx_init (register : Z) (subs : list (name * sub_ref)) : ctx := mkCtx subs register [] [].

(** 1673-1683 reserve_register *)
Definition reserve_register (c : ctx) : option (Z * ctx) :=
  do r <- find (fun i => negb (memz i (c_used c))) (zrange (c_min c) 256);
  Some (r, mkCtx (c_subs c) (r + 1) (r :: c_used c) (c_vars c)).

(** 1685-1687 release_register; set.remove raises KeyError when absent. *)
Definition release_register (c : ctx) (r : Z) : option ctx :=
  do! (memz r (c_used c));
  Some (mkCtx (c_subs c) (Z.min (c_min c) r) (filter (fun i => negb (i =? r)) (c_used c)) (c_vars c)).

(** 1689-1695 reserve_variable *)
Definition reserve_variable (c : ctx) (x : name) : option (Z * ctx) :=
  match dict_get bytes_eqb (c_vars c) x with
  | Some r => Some (r, c)
  | None =>
      do (r, c) <- reserve_register c;
      Some (r, mkCtx (c_subs c) (c_min c) (c_used c) (dict_set bytes_eqb (c_vars c) x r))
  end.

(** 1697-1698 get_variable_register *)
Definition get_variable_register (c : ctx) (x : name) : option Z := dict_get bytes_eqb (c_vars c) x.

(** const_eval: only Value (grf/parser.py:142-143, 226-228, 263-264). *)
Definition const_eval (e : node) : option Z := match e with NValue v => Some v | _ => None end.

(** struct.pack('<BBI', var, 0x20 | shift, mask) and '<BBBI' with a parameter. *)
Definition pk_var (var shift mask : Z) : option bytes :=
  concat_opt [pack_B var; pack_B (Z.lor 32 shift); pack_I mask].
Definition pk_varp (var param shift mask : Z) : option bytes :=
  concat_opt [pack_B var; pack_B param; pack_B (Z.lor 32 shift); pack_I mask].

(** The compile methods of the node classes. *)
Fixpoint compile (tab : name -> option vdata) (e : node) (shift mask : Z) (c : ctx)
  : option (bool * bytes * ctx) :=
  match e with
  | NExpr op a b => (* 172-189 *)
      do (is_value, b_code, c) <- compile tab b shift mask c;
      if is_value : bool then
        do (_, a_code, c) <- compile tab a shift mask c;
        do o <- mk_bytes [op];
        Some (false, a_code ++ o ++ b_code, c)
      else
        do (register, c) <- reserve_register c;
        do st <- concat_opt [pack_B OP_TSTO; pack_B 26; pack_B 32; pack_I register; pack_B OP_INIT];
        do (_, a_code, c) <- compile tab a shift mask c;
        do ld <- concat_opt [pack_B op; pk_varp 125 register 0 4294967295];
        do c <- release_register c register;
        Some (false, b_code ++ st ++ a_code ++ ld, c)
  | NAssign x e => (* 241-245 *)
      do (_, code, c) <- compile tab e shift mask c;
      do (register, c) <- reserve_variable c x;
      do st <- concat_opt [pack_B OP_TSTO; pack_B 26; pack_B 32; pack_I register];
      Some (false, code ++ st, c)
  | NValue v => (* 257-261 *)
      do! (shift <? 32); do! (mask <=? 4294967295);
      do code <- concat_opt [pack_B 26; pack_B 32; pack_I (Z.land (Z.shiftr v shift) mask)];
      Some (true, code, c)
  | NVar x | NVarP x _ => (* 283-303; [param] is not used *)
      match tab x with
      | None =>
          do register <- get_variable_register c x;
          do code <- pk_varp 125 register shift mask;
          Some (true, code, c)
      | Some d =>
          let mask := Z.land mask (Z.shiftr (Z.shiftl 1 (vd_size d) - 1) shift) in
          let shift := shift + vd_start d in
          do! (shift <? 32); do! (mask <=? 4294967295);
          do code <- match vd_param d with
                     | Some p => pk_varp (vd_var d) p shift mask
                     | None => pk_var (vd_var d) shift mask
                     end;
          Some (true, code, c)
      end
  | NGen var sh mk adj => (* 340-345, 357-358 *)
      let mask := Z.land mask (Z.shiftr mk shift) in
      let shift := shift + sh in
      do! (shift <? 32); do! (mask <=? 4294967295);
      match adj with Some _ => None | None =>
        do code <- pk_var var shift mask; Some (true, code, c)
      end
  | NGenP var sh mk adj p => (* 340-356 *)
      let mask := Z.land mask (Z.shiftr mk shift) in
      let shift := shift + sh in
      do! (shift <? 32); do! (mask <=? 4294967295);
      match adj with Some _ => None | None =>
        match const_eval p with
        | None =>
            do (_, code, c) <- compile tab p 0 4294967295 c;
            do ld <- concat_opt [pack_B OP_INIT; pk_varp 123 var shift mask];
            Some (true, code ++ ld, c)
        | Some v =>
            if 255 <? v then
              do code <- concat_opt [pack_B 26; pack_B 32; pack_I v; pack_B OP_INIT; pk_varp 123 var shift mask];
              Some (true, code, c)
            else
              do code <- pk_varp var v shift mask; Some (true, code, c)
        end
      end
  | NTemp r => (* 374-384 *)
      do! (shift <? 32); do! (mask <=? 4294967295);
      match const_eval r with
      | Some v => do code <- pk_varp 125 v shift mask; Some (true, code, c)
      | None =>
          do (_, code, c) <- compile tab r 0 4294967295 c;
          do ld <- concat_opt [pack_B OP_INIT; pk_varp 123 125 shift mask];
          Some (false, code ++ ld, c)
      end
  | NPerm r => (* 405-418 *)
      do! (shift <? 32); do! (mask <=? 4294967295);
      match const_eval r with
      | Some v => do code <- pk_varp 124 v shift mask; Some (true, code, c)
      | None =>
          do (_, code, c) <- compile tab r 0 4294967295 c;
          do ld <- concat_opt [pack_B OP_INIT; pk_varp 123 124 shift mask];
          Some (false, code ++ ld, c)
      end
  | NCall n => (* 431-440 *)
      do! ((0 <=? n) && (n <? 256));
      do! (shift <? 32); do! (mask <=? 4294967295);
      do code <- pk_varp 126 n shift mask; Some (true, code, c)
  | NCallN x => (* 450-468 *)
      do! (shift <? 32); do! (mask <=? 4294967295);
      do r <- dict_get bytes_eqb (c_subs c) x;
      do code <- pk_varp 126 (sub_id r) shift mask; Some (true, code, c)
  end.

(** ** Switch: grf/actions.py:1701-1798 *)

(** grf/common.py Range: low, high, ref. *)
Record srange := mkRange { r_low : Z; r_high : Z; r_ref : ref_obj }.

(** struct.pack('<i') *)
Definition pack_i (v : Z) : option bytes :=
  do! ((-2147483648 <=? v) && (v <? 2147483648)); pack_I (v mod 4294967296).

(** 1780-1789: one range becomes one or two ten-byte entries. *)
Definition range_data (r : srange) : option bytes :=
  let id := get_ref_id (r_ref r) in
  if (r_low r <? 0) && (0 <=? r_high r) then
    concat_opt [pack_H id; pack_i (r_low r); pack_i (-1); pack_H id; pack_i 0; pack_i (r_high r)]
  else
    concat_opt [pack_H id; pack_i (r_low r); pack_i (r_high r)].

(** 1773-1776: the lines of the code, joined with OP_INIT. *)
Fixpoint compile_rest (tab : name -> option vdata) (l : list node) (c : ctx) : option bytes :=
  match l with
  | [] => Some []
  | e :: l =>
      do (_, code, c) <- compile tab e 0 4294967295 c;
      do rest <- compile_rest tab l c;
      Some (OP_INIT :: code ++ rest)
  end.
Definition compile_lines (tab : name -> option vdata) (subs : list (name * sub_ref)) (l : list node) : option bytes :=
  match l with
  | [] => None (* ast[0]: IndexError *)
  | e :: l =>
      do (_, code, c) <- compile tab e 0 4294967295 (ctx_init 128 subs);
      do rest <- compile_rest tab l c;
      Some (code ++ rest)
  end.

(** 1777-1779: code[:-5], code[-5] & ~0x20, code[-4:] *)
Definition mark_end (code : bytes) : option bytes :=
  do! (5 <=? length code)%nat;
  let n := (length code - 5)%nat in
  do b <- mk_bytes [Z.land (nth n code 0) (Z.lnot 32)];
  Some (firstn n code ++ b ++ skipn (S n) code).

Record switch := mkSwitch {
  sw_feature : Z; sw_ref_id : Z; sw_related : bool; sw_subs : list (name * sub_ref);
  sw_lines : list node; sw_ranges : list srange; sw_default : ref_obj }.

(** 1770-1792 get_data; [sw_lines] is parsed_code (the parser is not part of
    this function's model). *)
Definition switch_data (tab : name -> option vdata) (s : switch) : option bytes :=
  do h <- mk_bytes [2; sw_feature s; sw_ref_id s; if sw_related s then 138 else 137];
  do code <- compile_lines tab (sw_subs s) (sw_lines s);
  do code <- mark_end code;
  do ranges <- concat_opt (map range_data (sw_ranges s));
  do n <- mk_bytes [len ranges / 10];
  do dflt <- pack_H (get_ref_id (sw_default s));
  Some (h ++ code ++ n ++ ranges ++ dflt).

(** ** Comparison operators *)

(** grf/parser.py:37-46 NML_OPE: (a, b, bv, optional (c, cv)). *)
Definition nml_ope (op : Z) : option (Z * Z * Z * option (Z * Z)) :=
  if op =? OPE_LT then Some (OP_CMP, OP_MIN, 1, Some (OP_XOR, 1))
  else if op =? OPE_GT then Some (OP_CMP, OP_SUB, 1, Some (OP_MAX, 0))
  else if op =? OPE_LE then Some (OP_CMP, OP_XOR, 2, Some (OP_MIN, 1))
  else if op =? OPE_GE then Some (OP_CMP, OP_MIN, 1, None)
  else if op =? OPE_EQ then Some (OP_CMP, OP_AND, 1, None)
  else if op =? OPE_NEQ then Some (OP_CMP, OP_AND, 1, Some (OP_XOR, 1))
  else if op =? OPE_HASBIT then Some (OP_SHRU, OP_AND, 1, None)
  else if op =? OPE_NHASBIT then Some (OP_SHRU, OP_AND, 1, Some (OP_XOR, 1))
  else None.

(** 622-633 (p_expression_binop): what the parser builds for [a op b]. *)
Definition mk_binop (op : Z) (x y : node) : node :=
  match nml_ope op with
  | Some (a, b, bv, c) =>
      let res := NExpr b (NExpr a x y) (NValue bv) in
      match c with Some (c, cv) => NExpr c res (NValue cv) | None => res end
  | None => NExpr op x y
  end.

(** 48-55 NML_OPE_PARSE: the nested dictionary, as lookups.  A dictionary maps
    (op, value) keys to dictionaries and op keys to operators. *)
Inductive pdict := PD (subs : list ((Z * Z) * pdict)) (ops : list (Z * Z)).
Definition pd_subs (d : pdict) := let 'PD s _ := d in s.
Definition pd_ops (d : pdict) := let 'PD _ o := d in o.
Definition pair_eqb (p q : Z * Z) : bool := (fst p =? fst q) && (snd p =? snd q).
(** root = root.setdefault(key, {}); ... applied along a path, then root[a] = k *)
Fixpoint pd_insert (path : list (Z * Z)) (a k : Z) (d : pdict) : pdict :=
  match path with
  | [] => PD (pd_subs d) (dict_set Z.eqb (pd_ops d) a k)
  | key :: path =>
      let sub := match dict_get pair_eqb (pd_subs d) key with Some s => s | None => PD [] [] end in
      PD (dict_set pair_eqb (pd_subs d) key (pd_insert path a k sub)) (pd_ops d)
  end.
Definition NML_OPE_keys : list Z :=
  [OPE_LT; OPE_GT; OPE_LE; OPE_GE; OPE_EQ; OPE_NEQ; OPE_HASBIT; OPE_NHASBIT].
Definition NML_OPE_PARSE : pdict :=
  fold_left (fun d k =>
    match nml_ope k with
    | Some (a, b, bv, c) =>
        pd_insert (match c with Some ccv => [ccv; (b, bv)] | None => [(b, bv)] end) a k d
    | None => d
    end) NML_OPE_keys (PD [] []).

(** 196-220: the matching loop of Expr.simplify; the result is the operator
    and operands the node gets. [node] is the current node (op, a, b). *)
Fixpoint simp_loop (root : pdict) (op : Z) (a b : node) : option (Z * node * node) :=
  match a, b with
  | NExpr op' a' b', NValue v =>
      match dict_get pair_eqb (pd_subs root) (op, v) with
      | None => None
      | Some root' =>
          match dict_get Z.eqb (pd_ops root') op' with
          | Some k => Some (k, a', b')
          | None => simp_loop root' op' a' b'
          end
      end
  | _, _ => None
  end.

(** simplify of the node classes (196-224, 305-307, 333-335, 389-391, 423-425;
    Node.simplify does nothing).  Recursion is on the node after rewriting,
    whose parts are parts of the original: fuel = size of the node. *)
Fixpoint simplify_f (fuel : nat) (e : node) : node :=
  match fuel with
  | O => e
  | S fuel =>
      match e with
      | NExpr op a b =>
          let '(op, a, b) := match simp_loop NML_OPE_PARSE op a b with
                             | Some r => r | None => (op, a, b) end in
          NExpr op (simplify_f fuel a) (simplify_f fuel b)
      | NVarP x p => NVarP x (simplify_f fuel p)
      | NGenP v s m adj p => NGenP v s m adj (simplify_f fuel p)
      | NTemp r => NTemp (simplify_f fuel r)
      | NPerm r => NPerm (simplify_f fuel r)
      | e => e
      end
  end.
Fixpoint node_size (e : node) : nat :=
  match e with
  | NExpr _ a b => S (node_size a + node_size b)
  | NAssign _ e | NVarP _ e | NGenP _ _ _ _ e | NTemp e | NPerm e => S (node_size e)
  | _ => 1%nat
  end.
Definition simplify (e : node) : node := simplify_f (node_size e) e.
