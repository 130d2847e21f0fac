(** JSON texts as Python's json.dumps writes them for the cache key:
    grf/cache.py:54-62.  Strings are their UTF-8 bytes: the text is encoded
    right away and only ASCII characters are ever escaped, so this is exact
    (strings with lone surrogates raise in encode() and have no UTF-8 form).
    Definitions only. *)
From Coq Require Import ZArith List Bool.
From Verif Require Import Base DecodeModel ParserModel.
Import ListNotations.
Open Scope Z_scope.

(** None, bool, int, float (by its repr), str, list or tuple, dict with str
    keys.  Dicts with other keys are not modelled. *)
Inductive json :=
| JNull | JBool (b : bool) | JInt (i : Z) | JFloat (repr : bytes) | JStr (s : bytes)
| JArr (l : list json) | JObj (l : list (bytes * json)).

(** json.encoder: escapes with ensure_ascii=False: the quote, the backslash
    and control characters below 0x20. *)
Definition esc (c : Z) : bytes :=
  if c =? 34 then [92; 34] else if c =? 92 then [92; 92]
  else if c =? 10 then [92; 110] else if c =? 13 then [92; 114] else if c =? 9 then [92; 116]
  else if c =? 12 then [92; 102] else if c =? 8 then [92; 98]
  else if c <? 32 then [92; 117; 48; 48; hex_digit (c / 16); hex_digit (c mod 16)]
  else [c].
Definition jstr (s : bytes) : bytes := 34 :: flat_map esc s ++ [34].

(** ','.join(l). *)
Fixpoint join (l : list bytes) : bytes :=
  match l with [] => [] | [a] => a | a :: r => a ++ 44 :: join r end.

(** separators=(',', ':'), indent=None. *)
Fixpoint jtext (j : json) : bytes :=
  match j with
  | JNull => [110; 117; 108; 108]
  | JBool true => [116; 114; 117; 101]
  | JBool false => [102; 97; 108; 115; 101]
  | JInt i => str_int i
  | JFloat r => r
  | JStr s => jstr s
  | JArr l => 91 :: join (map jtext l) ++ [93]
  | JObj l => 123 :: join (map (fun e => jstr (fst e) ++ 58 :: jtext (snd e)) l) ++ [125]
  end.

(** sort_keys=True: by code points, which is the order of the UTF-8 bytes. *)
Fixpoint key_le (a b : bytes) : bool :=
  match a, b with
  | [], _ => true
  | _ :: _, [] => false
  | x :: a, y :: b => (x <? y) || ((x =? y) && key_le a b)
  end.
Fixpoint insert_key (e : bytes * json) (l : list (bytes * json)) : list (bytes * json) :=
  match l with
  | [] => [e]
  | f :: r => if key_le (fst e) (fst f) then e :: l else f :: insert_key e r
  end.
Definition sort_keys (l : list (bytes * json)) : list (bytes * json) := fold_right insert_key [] l.
Fixpoint sorted_json (j : json) : json :=
  match j with
  | JArr l => JArr (map sorted_json l)
  | JObj l => JObj (sort_keys (map (fun e => (fst e, sorted_json (snd e))) l))
  | _ => j
  end.

(** json.dumps(j, ensure_ascii=False, sort_keys=True, indent=None,
    separators=(',', ':')).encode('utf-8'): cache.py:55-61. *)
Definition dumps (j : json) : bytes := jtext (sorted_json j).
