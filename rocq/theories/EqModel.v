(** Model of the comparison of actions ([==]): the __eq__ methods of
    grf/actions.py and the helper functions they use.  Definitions only.

    Python compares the attributes with [==].  A list equals a list with equal
    elements in the same places; two dictionaries are equal when they have the
    same keys with equal values, whatever the order; a value equals a value of
    its own kind only (an int is not a bytes). *)
From Coq Require Import ZArith List Bool String.
From Verif Require Import Base CommonModel RecordsModel PropModel Action0Model Action14Model VA2Model ParserModel.
Import ListNotations.
Open Scope string_scope.
Open Scope list_scope.
Open Scope Z_scope.

(** What an action holds as a reference: a reference object of RecordsModel,
    or an action that has no id yet ([ref_id] is None: actions.py:1706, 1831). *)
Inductive held := Held (r : ref_obj) | Unresolved (action : nat).

(** actions.py:50-57 get_ref_id *)
Definition held_id (h : held) : option Z :=
  match h with Held r => Some (get_ref_id r) | Unresolved _ => None end.

(** [==] on two ids, either of which may be None. *)
Definition id_eq (a b : option Z) : bool :=
  match a, b with Some a, Some b => a =? b | None, None => true | _, _ => false end.

(** actions.py:60-61 ref_eq *)
Definition ref_eq (a b : held) : bool := id_eq (held_id a) (held_id b).

(** actions.py:23-47 Ref.__init__, Ref.__eq__: two Ref objects, by their
    values; the flag and the number are derived from the value. *)
Definition Ref_eq (a b : Z) : bool :=
  (a =? b) && Bool.eqb (flag a 32768) (flag b 32768) && (Z.land a 32767 =? Z.land b 32767).

(** [==] on lists. *)
Fixpoint list_eq {A} (eqb : A -> A -> bool) (l m : list A) : bool :=
  match l, m with
  | [], [] => true
  | x :: l, y :: m => eqb x y && list_eq eqb l m
  | _, _ => false
  end.

(** [==] on dictionaries: as many keys, and each key of the first one is in
    the second one with an equal value.  Also actions.py:64-72 ref_dict_eq, with
    [ref_eq] for the values. *)
Definition dict_eq {K V} (keq : K -> K -> bool) (veq : V -> V -> bool) (a b : list (K * V)) : bool :=
  (List.length a =? List.length b)%nat
  && forallb (fun kv => match dict_get keq b (fst kv) with Some w => veq (snd kv) w | None => false end) a.
Definition ref_dict_eq (a b : list (Z * held)) : bool := dict_eq Z.eqb ref_eq a b.

(** actions.py:80-100 Range *)
Record range := mkR { g_low : Z; g_high : Z; g_ref : held }.
Definition range_eq (r s : range) : bool :=
  ref_eq (g_ref r) (g_ref s) && (g_low r =? g_low s) && (g_high r =? g_high s).

Definition bytes_eq : bytes -> bytes -> bool := list_eq Z.eqb.

(** actions.py:1453-1460 DefineMultiple.__eq__; the [==] of the property values
    ([veq]) is an argument. *)
Definition define_eq (veq : pv -> pv -> bool) (a b : define) : bool :=
  (df_feature a =? df_feature b) && (df_first a =? df_first b) && (df_count a =? df_count b)
  && dict_eq String.eqb (list_eq veq) (df_props a) (df_props b).

(** actions.py:1709-1721, 1816-1825 Switch.  The method compares feature,
    ref_id, related_scope, code, ranges and default; it does not compare the
    subroutines. *)
Record switch := mkSw {
  s_feature : Z; s_ref_id : option Z; s_related : bool; s_subs : list (name * sub_ref);
  s_code : bytes; s_ranges : list range; s_default : held }.
Definition switch_eq (a b : switch) : bool :=
  (s_feature a =? s_feature b) && id_eq (s_ref_id a) (s_ref_id b) && Bool.eqb (s_related a) (s_related b)
  && bytes_eq (s_code a) (s_code b) && list_eq range_eq (s_ranges a) (s_ranges b)
  && ref_eq (s_default a) (s_default b).

(** The object as the writer sees it (VA2Model.switch): the code parsed
    (actions.py:1745-1768 parsed_code, for a feature that parses as itself) and the
    references with their ids; struct.pack and bytes() raise on None. *)
Definition held_ref (h : held) : option ref_obj := match h with Held r => Some r | Unresolved _ => None end.
Fixpoint all_some {A B} (f : A -> option B) (l : list A) : option (list B) :=
  match l with [] => Some [] | x :: l => do y <- f x; do r <- all_some f l; Some (y :: r) end.
Definition switch_record (tab : name -> option vdata) (s : switch) : option bytes :=
  do lines <- parse_code (s_code s);
  do ranges <- all_some (fun r => do h <- held_ref (g_ref r); Some (mkRange (g_low r) (g_high r) h)) (s_ranges s);
  do default <- held_ref (s_default s);
  do id <- s_ref_id s;
  switch_data tab (mkSwitch (s_feature s) id (s_related s) (s_subs s) lines ranges default).

(** actions.py:1935-1943, 1984-1992 Action3 *)
Record map3 := mkM { m_feature : Z; m_ids : list Z; m_maps : list (Z * held); m_default : held; m_override : bool }.
Definition map3_eq (a b : map3) : bool :=
  (m_feature a =? m_feature b) && list_eq Z.eqb (m_ids a) (m_ids b) && ref_dict_eq (m_maps a) (m_maps b)
  && ref_eq (m_default a) (m_default b) && Bool.eqb (m_override a) (m_override b).
(** As the writer sees it (RecordsModel.action3). *)
Definition map3_record (a : map3) : option bytes :=
  do maps <- all_some (fun kv => do r <- held_ref (snd kv); Some (fst kv, r)) (m_maps a);
  do default <- held_ref (m_default a);
  action3_data (mkA3 (m_feature a) (m_ids a) maps default (m_override a)).

(** actions.py:2058-2066 DefineStrings.__eq__ *)
Definition action4_eq (a b : action4) : bool :=
  (a4_feature a =? a4_feature b) && (a4_lang a =? a4_lang b) && (a4_offset a =? a4_offset b)
  && Bool.eqb (a4_generic a) (a4_generic b) && list_eq bytes_eq (a4_strings a) (a4_strings b).

(** actions.py:2168-2175 SetDescription.__eq__ *)
Definition action8_eq (a b : action8) : bool :=
  bytes_eq (a8_grfid a) (a8_grfid b) && bytes_eq (a8_name a) (a8_name b) && bytes_eq (a8_desc a) (a8_desc b)
  && (a8_version a =? a8_version b).

(** actions.py:2407-2411 SetProperties.__eq__: [==] on nested dictionaries,
    lists and scalars.  A string reference is given by its texts. *)
Definition pkey_eq (a b : pkey) : bool :=
  match a, b with KRaw a, KRaw b => bytes_eq a b | KInt a, KInt b => a =? b | _, _ => false end.
Fixpoint pval_eq (v w : pval) {struct v} : bool :=
  match v, w with
  | PDict l, PDict m =>
      (List.length l =? List.length m)%nat
      && (fix each l := match l with
          | [] => true
          | (k, x) :: l => match dict_get pkey_eq m k with Some y => pval_eq x y | None => false end && each l
          end) l
  | PText a s, PText b t => (a =? b) && bytes_eq s t
  | PList l, PList m =>
      (fix same l m := match l, m with
       | [], [] => true
       | x :: l, y :: m => pval_eq x y && same l m
       | _, _ => false
       end) l m
  | PStr s, PStr t => bytes_eq s t
  | PInt a, PInt b => a =? b
  | PBytes a, PBytes b => bytes_eq a b
  | PPairs a, PPairs b => list_eq (fun p q => (fst p =? fst q) && bytes_eq (snd p) (snd q)) a b
  | _, _ => false
  end.
Definition props_eq (a b : list (pkey * pval)) : bool := pval_eq (PDict a) (PDict b).
