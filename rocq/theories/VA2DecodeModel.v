(** Model of the VarAction2 branch of decode_action2: grf/decompile.py:504-525
    (get_var_node) and 551-623.  Definitions only. *)
From Coq Require Import ZArith List Bool.
From Verif Require Import Base CommonModel RecordsModel Action14Model VA2Model.
Import ListNotations.
Open Scope Z_scope.

(** VA2_VARS_INV[feature]: (var, start, mask) -> name (va2vars.py:353-356). *)
Definition inv_table := Z -> Z -> Z -> option name.

(** 509-525 with var other than 7B, add_val = divmod_val = None; the node's
    optional parameter is [param].  Perm / Temp of a missing parameter (a
    first instruction using 7B) is not represented: [None]. *)
Definition var_node (vinv : option inv_table) (var : Z) (param : option node) (shift mask : Z) : option node :=
  if (var =? 26) && (shift =? 0) then Some (NValue mask)
  else if (var =? 124) && (shift =? 0) && (mask =? 4294967295) then do p <- param; Some (NPerm p)
  else if (var =? 125) && (shift =? 0) && (mask =? 4294967295) then do p <- param; Some (NTemp p)
  else if (var =? 126) && (shift =? 0) && (mask =? 4294967295) then
    match param with Some (NValue n) => Some (NCall n) | _ => None end
  else
    do tab <- vinv; (* assert feature in VA2_VARS_INV *)
    Some (match tab var shift mask, param with
          | Some x, None => NVar x
          | Some x, Some p => NVarP x p
          | None, None => NGen var shift mask None
          | None, Some p => NGenP var shift mask None p
          end).

(** 504-525.  [adj] is (node_type, add_val, divmod_val) when node_type is not
    0.  7B uses the accumulator as parameter; a second 7B would need
    root.value, which only a Value has, and Value(7B) recurses for ever. *)
Definition get_var_node (vinv : option inv_table) (root : option node) (var : Z) (param : option node)
    (shift mask : Z) (adj : option (Z * Z * Z)) : option node :=
  match adj with
  | Some a => Some (match param with None => NGen var shift mask (Some a)
                                   | Some p => NGenP var shift mask (Some a) p end)
  | None =>
      if var =? 123 then
        match param with
        | Some (NValue v) =>
            if v =? 123 then
              match root with
              | Some (NValue w) => if w =? 123 then None else var_node vinv w root shift mask
              | _ => None
              end
            else var_node vinv v root shift mask
        | _ => None
        end
      else var_node vinv var param shift mask
  end.

(** grf/common.py:227-231 get_var *)
Definition rd_var (group_size : Z) (d : bytes) : option (Z * bytes) :=
  if group_size =? 0 then rd_B d else if group_size =? 1 then rd_H d
  else if group_size =? 2 then rd_I d else None.

(** 562-596: the instruction loop. [code] is the list of finished lines,
    [acc] the accumulator (None before the first instruction). *)
Fixpoint dec_loop (fuel : nat) (vinv : option inv_table) (gs : Z) (code : list node) (acc : option node) (d : bytes)
  : option (list node * bytes) :=
  match fuel with
  | O => None
  | S fuel =>
      do (op, d) <- (match acc with None => Some (0, d) | Some _ => rd_B d end);
      do (var, d) <- rd_B d;
      do (param, d) <- (if (96 <=? var) && (var <? 128) then do (p, d) <- rd_B d; Some (Some (NValue p), d)
                        else Some (None, d));
      do (varadj, d) <- rd_B d;
      let shift := Z.land varadj 31 in
      let has_more := negb (Z.land varadj 32 =? 0) in
      let node_type := Z.shiftr varadj 6 in
      do (and_mask, d) <- rd_var gs d;
      do (adj, d) <- (if negb (node_type =? 0)
                      then do (a, d) <- rd_var gs d; do (v, d) <- rd_var gs d; Some (Some (node_type, a, v), d)
                      else Some (None, d));
      do node <- get_var_node vinv acc var param shift and_mask adj;
      let '(code, acc) := match acc with
                          | None => (code, node)
                          | Some a =>
                              if op =? OP_INIT then ((if negb (var =? 123) then code ++ [a] else code), node)
                              else (code, NExpr op a node)
                          end in
      if has_more then dec_loop fuel vinv gs code (Some acc) d else Some (code ++ [acc], d)
  end.

(** 600-606: ranges, as Range(low, high, Ref(group)). *)
Definition rd_srange (gs : Z) (d : bytes) : option (srange * bytes) :=
  do (g, d) <- rd_H d; do (lo, d) <- rd_var gs d; do (hi, d) <- rd_var gs d;
  Some (mkRange lo hi (RRef g), d).

(** 551-623, VarAction2 branch; [sw_lines] stands for the text made from the
    simplified nodes (lines 610-620 print them). *)
Definition decode_switch (vinvs : Z -> option inv_table) (d : bytes) : option switch :=
  do (f, d) <- rd_B d; do f <- feature_of f;
  do (ref_id, d) <- rd_B d;
  do (atype, d) <- rd_B d;
  do! (memz atype [129; 130; 133; 134; 137; 138]);
  let gs := Z.land (Z.shiftr atype 2) 3 in
  let related := negb (Z.land atype 2 =? 0) in
  do (code, d) <- dec_loop (length d) (vinvs f) gs [] None d;
  do (n, d) <- rd_B d;
  do (ranges, d) <- rd_n (rd_srange gs) (Z.to_nat n) d;
  do (dflt, d) <- rd_H d;
  Some (mkSwitch f ref_id related [] (map simplify code) ranges (RRef dflt)).
