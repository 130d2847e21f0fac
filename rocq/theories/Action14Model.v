(** Model of SetProperties (Action 14): grf/actions.py:2399-2457 and
    grf/decompile.py:940-976.  Definitions only. *)
From Coq Require Import ZArith List Bool.
From Verif Require Import Base CommonModel RecordsModel.
Import ListNotations.
Open Scope Z_scope.

(** A property key: bytes, a str (as its utf-8 bytes) or an int. *)
Inductive pkey := KRaw (b : bytes) | KInt (n : Z).

(** A property value. str and bytes texts are given by their bytes;
    [PPairs] is a string reference whose get_pairs() yields (lang, text). *)
Inductive pval :=
| PDict (l : list (pkey * pval))
| PText (lang : Z) (text : bytes)        (* tuple (lang_id, text) *)
| PList (l : list pval)
| PStr (text : bytes)                    (* str *)
| PInt (n : Z)
| PBytes (b : bytes)
| PPairs (l : list (Z * bytes)).

(** actions.py:2417-2422: the encoded key. *)
Definition enc_key (k : pkey) : option bytes :=
  match k with KRaw b => Some b | KInt n => pack_I n end.

(** 'C' = 67, 'T' = 84, 'B' = 66 *)
Definition enc_text (k : bytes) (lang : Z) (text : bytes) : option bytes :=
  concat_opt [Some [84]; Some k; mk_bytes [lang]; Some text; Some [0]].

(** actions.py:2411-2452 rec(k, v); the top-level call has k = None. *)
Fixpoint enc_rec (k : option pkey) (v : pval) {struct v} : option bytes :=
  do kb <- (match k with None => Some None | Some k => do b <- enc_key k; Some (Some b) end);
  match v with
  | PDict l =>
      do inner <- (fix go l := match l with
                    | [] => Some []
                    | (ck, cv) :: r => do a <- enc_rec (Some ck) cv; do b <- go r; Some (a ++ b)
                    end) l;
      Some ((match kb with None => [] | Some b => 67 :: b end) ++ inner ++ [0])
  | PList l =>
      (* rec(k, x) for each element; k is by then bytes *)
      (fix go l := match l with
         | [] => Some []
         | x :: r => do a <- enc_rec (option_map KRaw kb) x; do b <- go r; Some (a ++ b)
         end) l
  | _ =>
      do kb <- kb;      (* 2415: assert k is not None or isinstance(v, dict) *)
      match v with
      | PText lang text => enc_text kb lang text
      | PStr text => Some ([84] ++ kb ++ [0] ++ text ++ [0])
      | PInt n => concat_opt [Some [66]; Some kb; Some [4; 0]; pack_I n]
      | PBytes b => concat_opt [Some [66]; Some kb; pack_H (len b); Some b]
      | PPairs ps => concat_opt (map (fun p => enc_text kb (fst p) (snd p)) ps)
      | _ => None
      end
  end.

(** actions.py:2408-2457 get_data. *)
Definition action14_data (props : list (pkey * pval)) : option bytes :=
  do b <- enc_rec None (PDict props); Some (20 :: b).

(** What the decoder builds: a dict from 4-byte tags to sub-dicts or lists of
    binary and text items. *)
Inductive ditem := IBin (b : bytes) | IText (lang : Z) (text : bytes).
Inductive dval := DDict (l : list (bytes * dval)) | DList (l : list ditem).
Definition ddict := list (bytes * dval).

Fixpoint bytes_eqb (a b : bytes) : bool :=
  match a, b with
  | [], [] => true
  | x :: a, y :: b => (x =? y) && bytes_eqb a b
  | _, _ => false
  end.

(** res[chunk_id].append(item), creating the list if the key is new; a dict
    there has no append (AttributeError). *)
Definition dict_append (res : ddict) (k : bytes) (i : ditem) : option ddict :=
  match dict_get bytes_eqb res k with
  | None => Some (dict_set bytes_eqb res k (DList [i]))
  | Some (DList l) => Some (dict_set bytes_eqb res k (DList (l ++ [i])))
  | Some (DDict _) => None
  end.

(** decompile.py:944-971 decode_chunk, iterated until it returns False
    (952-953 and 973-974).  A text without a terminating NUL sends the real
    code back to offset 0 and into an endless loop; that is [None] here. *)
Fixpoint decode_chunks (fuel : nat) (d : bytes) (res : ddict) : option (ddict * bytes) :=
  match fuel with
  | O => None
  | S fuel =>
      do (t, d) <- rd_B d;
      if t =? 0 then Some (res, d)
      else
        let '(id, d) := slice 4 d in
        if t =? 67 then
          do (sub, d) <- decode_chunks fuel d [];
          decode_chunks fuel d (dict_set bytes_eqb res id (DDict sub))
        else if t =? 66 then
          do (l, d) <- rd_H d;
          let '(b, d) := slice (Z.to_nat l) d in
          do res <- dict_append res id (IBin b);
          decode_chunks fuel d res
        else if t =? 84 then
          do (lang, d) <- rd_B d;
          do p <- find0 d;
          do res <- dict_append res id (IText lang (firstn p d));
          decode_chunks fuel (skipn (S p) d) res
        else None
  end.

(** decompile.py:940-976 decode_action14. *)
Definition decode_action14 (d : bytes) : option ddict :=
  do (res, _) <- decode_chunks (S (length d)) d []; Some res.
