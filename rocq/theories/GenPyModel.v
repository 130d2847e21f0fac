(** Model of BaseNewGRF.generate_python (grf/grf.py:272-317): printing a list
    of actions as a Python program, and of running that program.  Definitions
    only.

    Objects are natural numbers; a heap gives their attributes.  The text is
    kept as a list of statements of the form [name = Class(arguments)]; names
    are real text.  Everything an action prints besides its feature, its
    ref_id and its references is one number, [pa_rest], and is taken to be
    read back as printed.  Not modelled: the import lines, tuples of
    alternative sprites (they hold no references), Sound objects among the
    references. *)
From Coq Require Import ZArith List Bool.
From Verif Require Import Base CommonModel RecordsModel DecodeModel ParserModel RefsModel.
Import ListNotations.
Open Scope Z_scope.

(** A reference: an action object, Ref(value) (CB(value) has bit 15 set,
    actions.py:25-29, 75-77), or a plain int. *)
Inductive pref := PAct (a : nat) | PRef (value : Z) | PInt (n : Z).

(** Where an action keeps its references.  The type of the references is a
    parameter: objects before printing, expressions after.  [subs] is
    Switch.subroutines (None and an empty dict are both []); ranges are
    Range(low, high, ref); maps are the items of a dict. *)
Inductive holder (R : Type) :=
| HSwitch (subs : list (Z * R)) (ranges : list (Z * Z * R)) (default : R)
| HRandom (groups : list R)
| HMap (maps : list (Z * R)) (default : R)
| HNone.
Arguments HSwitch {R}. Arguments HRandom {R}. Arguments HMap {R}. Arguments HNone {R}.

Record action (R : Type) := mkPA {
  pa_referenceable : bool; pa_feature : option Z; pa_ref_id : option Z; pa_rest : Z; pa_hold : holder R }.
Arguments mkPA {R}. Arguments pa_referenceable {R}. Arguments pa_feature {R}. Arguments pa_ref_id {R}.
Arguments pa_rest {R}. Arguments pa_hold {R}.

(** isinstance(s, ReferencingAction) *)
Definition referencing {R} (h : holder R) : bool := match h with HNone => false | _ => true end.

(** actions.py:1730-1734 (Switch), 1850-1851 (RandomSwitch), 1945-1947
    (Action3) get_refs *)
Definition get_refs {R} (h : holder R) : list R :=
  match h with
  | HSwitch subs ranges d => map snd subs ++ map snd ranges ++ [d]
  | HRandom gs => gs
  | HMap m d => map snd m ++ [d]
  | HNone => []
  end.

(** for x in l: x.ref = next(it); the rest of the iterator is returned *)
Fixpoint take_refs {K R S} (l : list (K * R)) (it : list S) : option (list (K * S) * list S) :=
  match l with
  | [] => Some ([], it)
  | (k, _) :: l => match it with
                   | [] => None
                   | r :: it => do (l, it) <- take_refs l it; Some ((k, r) :: l, it)
                   end
  end.

(** actions.py:1736-1743 (Switch), 1853-1854 (RandomSwitch), 1949-1952
    (Action3) set_refs *)
Definition set_refs {R S} (h : holder R) (refs : list S) : option (holder S) :=
  match h with
  | HSwitch subs ranges _ =>
      do (subs, it) <- take_refs subs refs;
      do (ranges, it) <- take_refs ranges it;
      match it with [] => None | d :: _ => Some (HSwitch subs ranges d) end
  | HRandom _ => Some (HRandom refs)
  | HMap m _ =>
      match rev refs with
      | [] => None                                        (* refs[-1] *)
      | d :: _ => do (m, _) <- take_refs m refs; Some (HMap m d)
      end
  | HNone => Some HNone
  end.

(** Ref.is_callback, actions.py:28 *)
Definition is_callback (v : Z) : bool := negb (Z.land v 32768 =? 0).

(** ** First pass: grf.py:289-305 *)

(** 293-298 *)
Definition link1 (refs : list (Z * nat)) (r : pref) : pref :=
  match r with
  | PRef v => if is_callback v then r
              else match dict_get Z.eqb refs v with Some s => PAct s | None => r end
  | _ => r
  end.

Record gstate := mkGS {
  gs_heap : nat -> action pref; gs_refs : list (Z * nat); gs_count : list (Z * Z); gs_var : nat -> option bytes }.

(** 'ref_', '_' *)
Definition REF_ : bytes := [114; 101; 102; 95].
(** 305 *)
Definition ref_var (v count : Z) : bytes := REF_ ++ str_int v ++ 95 :: str_nat count.

Definition link_step (s : nat) (st : gstate) : option gstate :=
  let a := gs_heap st s in
  do h <- (if referencing (pa_hold a) then set_refs (pa_hold a) (map (link1 (gs_refs st)) (get_refs (pa_hold a))) else Some (pa_hold a));
  let heap := upd (gs_heap st) s (mkPA (pa_referenceable a) (pa_feature a) (pa_ref_id a) (pa_rest a) h) in
  match pa_referenceable a, pa_ref_id a with
  | true, Some v =>
      let count := match dict_get Z.eqb (gs_count st) v with Some c => c | None => 0 end + 1 in
      Some (mkGS heap (dict_set Z.eqb (gs_refs st) v s) (dict_set Z.eqb (gs_count st) v count)
                 (upd (gs_var st) s (Some (ref_var v count))))
  | _, _ => Some (mkGS heap (gs_refs st) (gs_count st) (gs_var st))
  end.
(** The objects start without a variable (actions.py:129-130). *)
Definition link_all (heap : nat -> action pref) (generators : list nat) : option gstate :=
  fold_opt link_step generators (mkGS heap [] [] (fun _ => None)).

(** ** Second pass: grf.py:307-315 *)

Inductive expr := EName (x : bytes) | ERef (v : option Z) | ECB (v : Z) | EInt (n : Z).

(** actions.py:150-153 _format_ref, 137-140 py_ref, 31-34 Ref.__str__ *)
Definition format_ref (st : gstate) (r : pref) : expr :=
  match r with
  | PAct a =>
      if pa_referenceable (gs_heap st a) then
        match gs_var st a with Some x => EName x | None => ERef (pa_ref_id (gs_heap st a)) end
      else ERef None                                   (* repr of an object: not an expression *)
  | PRef v => if is_callback v then ECB (Z.land v 32767) else ERef (Some (Z.land v 32767))
  | PInt n => EInt n
  end.

(** A key of the printed dict: an int or a pair. *)
Inductive key := KOne (v : Z) | KTwo (low high : Z).
Definition key_eqb (a b : key) : bool :=
  match a, b with
  | KOne x, KOne y => x =? y
  | KTwo x y, KTwo x' y' => (x =? x') && (y =? y')
  | _, _ => false
  end.
(** actions.py:118-125 key_func *)
Definition range_key (low high : Z) : key := if low =? high then KOne (utoi32 low) else KTwo (utoi32 low) (utoi32 high).

(** The printed arguments: dict literals are lists of entries. *)
Inductive args :=
| ASwitch (ranges : list (key * expr)) (default : expr)
| ARandom (groups : list expr)
| AMap (maps : list (Z * expr)) (default : expr)
| ANone.
Record stmt := mkStmt {
  st_var : option bytes; st_referenceable : bool; st_feature : option Z; st_ref_id : option Z; st_rest : Z; st_args : args }.

(** Switch.py 1800-1816 (the subroutines are not printed), RandomSwitch.py
    1871-1883, Action3.py 1973-1982; _py_ref_id 132-135: only referenceable
    actions print a ref_id. *)
Definition print_args (st : gstate) (h : holder pref) : args :=
  match h with
  | HSwitch _ ranges d => ASwitch (map (fun r => (range_key (fst (fst r)) (snd (fst r)), format_ref st (snd r))) ranges) (format_ref st d)
  | HRandom gs => ARandom (map (format_ref st) gs)
  | HMap m d => AMap (map (fun e => (fst e, format_ref st (snd e))) m) (format_ref st d)
  | HNone => ANone
  end.
Definition print_action (st : gstate) (s : nat) : stmt :=
  let a := gs_heap st s in
  mkStmt (if pa_referenceable a then gs_var st s else None) (pa_referenceable a) (pa_feature a)
         (if pa_referenceable a then pa_ref_id a else None) (pa_rest a) (print_args st (pa_hold a)).
Definition generate_python (heap : nat -> action pref) (generators : list nat) : option (list stmt) :=
  do st <- link_all heap generators; Some (map (print_action st) generators).

(** ** Running the program (Python's semantics and the constructors) *)

(** Names are looked up among the assignments made so far; NameError. *)
Definition beq (a b : bytes) : bool := if list_eq_dec Z.eq_dec a b then true else false.
Definition eval (env : list (bytes * nat)) (e : expr) : option pref :=
  match e with
  | EName x => do a <- dict_get beq env x; Some (PAct a)
  | ERef (Some v) => Some (PRef v)
  | ERef None => None
  | ECB v => Some (PRef (Z.lor v 32768))
  | EInt n => Some (PInt n)
  end.
Fixpoint eval_items {K} (env : list (bytes * nat)) (l : list (K * expr)) : option (list (K * pref)) :=
  match l with
  | [] => Some []
  | (k, e) :: l => do v <- eval env e; do l <- eval_items env l; Some ((k, v) :: l)
  end.
Fixpoint eval_list (env : list (bytes * nat)) (l : list expr) : option (list pref) :=
  match l with
  | [] => Some []
  | e :: l => do v <- eval env e; do l <- eval_list env l; Some (v :: l)
  end.
(** {k: v, ...} *)
Definition dict_of {K V} (eqb : K -> K -> bool) (l : list (K * V)) : list (K * V) :=
  fold_left (fun d e => dict_set eqb d (fst e) (snd e)) l [].
(** Switch.__init__, actions.py:1709-1721 *)
Definition key_range (e : key * pref) : Z * Z * pref :=
  match fst e with KOne v => (v, v, snd e) | KTwo l h => (l, h, snd e) end.
Definition eval_args (env : list (bytes * nat)) (a : args) : option (holder pref) :=
  match a with
  | ASwitch ranges d =>
      do ranges <- eval_items env ranges; do d <- eval env d;
      Some (HSwitch [] (map key_range (dict_of key_eqb ranges)) d)
  | ARandom gs => do gs <- eval_list env gs; Some (HRandom gs)
  | AMap m d => do m <- eval_items env m; do d <- eval env d; Some (HMap (dict_of Z.eqb m) d)
  | ANone => Some HNone
  end.

(** Each statement makes one object, added to the grf in turn (the classes
    are bound to it: grf.py:282-286); the k-th object made has number k. *)
Fixpoint run_program (env : list (bytes * nat)) (k : nat) (p : list stmt) : option (list (action pref)) :=
  match p with
  | [] => Some []
  | s :: p =>
      do h <- eval_args env (st_args s);
      let env := match st_var s with Some x => dict_set beq env x k | None => env end in
      do l <- run_program env (S k) p;
      Some (mkPA (st_referenceable s) (st_feature s) (st_ref_id s) (st_rest s) h :: l)
  end.

(** decompile, print, run: the objects of the rebuilt grf. *)
Definition rebuild (heap : nat -> action pref) (generators : list nat) : option (list (action pref)) :=
  do p <- generate_python heap generators; run_program [] 0 p.

(** ** Writing the rebuilt grf *)

(** actions.py:50-57 get_ref_id for one of the references, [ids] being the
    ref_id attributes at that moment. *)
Definition ref_number (ids : nat -> option Z) (r : pref) : option Z :=
  match r with
  | PAct a => ids a
  | PRef v => Some v
  | PInt n => Some (Z.lor n 32768)
  end.

(** What resolve_refs (RefsModel) sees of an object. *)
Definition to_gref (r : pref) : gref := match r with PAct a => GAct a | PRef v => GRef v | PInt _ => GOther end.
Definition to_node (a : action pref) : node :=
  mkNode (referencing (pa_hold a)) (pa_referenceable a) (map to_gref (get_refs (pa_hold a))) (pa_ref_id a) (pa_feature a).
Definition blank : action pref := mkPA false None None 0 HNone.
Definition heap_of (l : list (action pref)) (k : nat) : action pref := nth k l blank.
Definition write_order (fuel : nat) (l : list (action pref)) : option resolved :=
  resolve_refs fuel (fun k => to_node (heap_of l k)) (seq 0 (length l)).
