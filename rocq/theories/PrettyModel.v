(** Model of the pretty printer of actions: grf/actions.py:2466-2550
    PrettyPrinter, used with indent=4, compact=True, sort_dicts=False and
    width=120 (2555), and the parts of pprint.PrettyPrinter it inherits (CPython
    3.11 Lib/pprint.py; lines of that file are marked "pprint").  Values are
    None, bools, ints, bytes, strings, lists, tuples and dicts, not sharing
    parts with themselves.  Definitions only. *)
From Coq Require Import ZArith List Bool String.
From Verif Require Import Base ParserModel PyValue PyTextModel.
Import ListNotations.
Open Scope string_scope.
Open Scope list_scope.
Open Scope Z_scope.

Definition blanks (n : Z) : bytes := repeat 32 (Z.to_nat n).
(** ',\n' + ' ' * indent *)
Definition delim_nl (indent : Z) : bytes := 44 :: 10 :: blanks indent.

(** pprint 656-671 _wrap_bytes_repr: groups of four bytes; only a last group of
    fewer makes room for the allowance. *)
Fixpoint fours (b : bytes) : list bytes :=
  match b with
  | a :: b :: c :: d :: r => [a; b; c; d] :: fours r
  | [] => []
  | r => [r]
  end.
Fixpoint wrap_bytes (parts : list bytes) (width allowance : Z) (current : bytes) : list bytes :=
  match parts with
  | [] => match current with [] => [] | _ => [current] end
  | part :: r =>
      let width := if len part <? 4 then width - allowance else width in
      let candidate := current ++ part in
      if width <? len (repr (YBytes candidate)) then
        match current with
        | [] => wrap_bytes r width allowance part
        | _ => current :: wrap_bytes r width allowance part
        end
      else wrap_bytes r width allowance candidate
  end.
(** pprint 327-344 _pprint_bytes; [top] is level == 1. *)
Definition pprint_bytes (b : bytes) (top : bool) (indent allowance : Z) : bytes :=
  if len b <=? 4 then repr (YBytes b)
  else
    let indent := if top then indent + 1 else indent in
    let allowance := if top then allowance + 1 else allowance in
    let body := joins (10 :: blanks indent) (map (fun c => repr (YBytes c)) (wrap_bytes (fours b) (120 - indent) allowance [])) in
    if top then 40 :: body ++ [41] else body.

(** pprint 416-455 _format_items; [f] is self._format with the new
    indentation, its second argument the allowance. *)
Definition format_items (f : py -> Z -> bytes) (indent allowance : Z) :=
  fix loop (l : list py) (width max_width : Z) (delim : bytes) : bytes :=
    match l with
    | [] => []
    | ent :: r =>
        let last := match r with [] => true | _ => false end in
        let max_width := if last then max_width - allowance else max_width in
        let width := if last then width - allowance else width in
        let rep := repr ent in
        let w := len rep + 2 in
        let '(width, delim) :=
          if width <? w then (max_width, match delim with [] => [] | _ => delim_nl indent end) else (width, delim) in
        if w <=? width then delim ++ rep ++ loop r (width - w) max_width (txt ", ")
        else delim ++ f ent (if last then allowance else 1) ++ loop r width max_width (delim_nl indent)
    end.
(** pprint 380-395 _format_dict_items; the third argument of [f] is the width
    of the key and ': '. *)
Definition format_dict_items (f : py -> Z -> Z -> bytes) (indent allowance : Z) :=
  fix loop (l : list (py * py)) : bytes :=
    match l with
    | [] => []
    | (k, ent) :: r =>
        let last := match r with [] => true | _ => false end in
        let rep := repr k in
        rep ++ txt ": " ++ f ent (if last then allowance else 1) (len rep + 2) ++
        (if last then [] else delim_nl indent ++ loop r)
    end.

(** actions.py:2516-2548 _format: a string has an attribute format, which is
    called and writes nothing (2545-2546; it also raises for some strings with
    braces).  Otherwise pprint 171-197: the repr if it fits, else the dict, list
    or tuple over several lines (pprint 209-222, 239-252). *)
Fixpoint format_value (v : py) (top : bool) (indent allowance : Z) {struct v} : bytes :=
  match v with
  | YStr _ | YText _ => []
  | _ =>
    if 120 - indent - allowance <? len (repr v) then
      match v with
      | YDict l => 123 :: blanks 3 ++ format_dict_items (fun e a k => format_value e false (indent + 4 + k) a) (indent + 4) (allowance + 1) l ++ [125]
      | YList l =>
          91 :: blanks 3 ++ format_items (fun e a => format_value e false (indent + 4) a) (indent + 4) (allowance + 1) l
                              (120 - (indent + 4) + 1) (120 - (indent + 4) + 1) [] ++ [93]
      | YTuple l =>
          let close := match l with [_] => [44; 41] | _ => [41] end in
          40 :: blanks 3 ++ format_items (fun e a => format_value e false (indent + 4) a) (indent + 4) (allowance + len close) l
                              (120 - (indent + 4) + 1) (120 - (indent + 4) + 1) [] ++ close
      | YBytes b => pprint_bytes b top indent allowance
      | _ => repr v
      end
    else repr v
  end.
(** pprint 159-162 pformat *)
Definition pretty (v : py) : bytes := format_value v true 0 0.
