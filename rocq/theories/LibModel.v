(** Model of parts of grf/lib: combine_ranges, DisableDefault and BaseCosts
    (grf/lib/misc.py:7-19, 112-177, 183-266), the purchase order
    (grf/lib/vehicle.py:114-207), the articulation of trains
    (grf/lib/train.py:40-121, 123-175); and of openttd_adjust_brightness
    (grf/colour.py:185-212).  Definitions only. *)
From Coq Require Import ZArith List Bool String.
From Verif Require Import Base RecordsModel PropModel Action0Model.
Import ListNotations.
Open Scope string_scope.
Open Scope list_scope.
Open Scope Z_scope.
Notation length := List.length.

(** ** misc.py *)
(** sorted(values): pairs of an id and a value, by id.  Pairs with the same id
    are compared by value in Python; here they keep their order. *)
Fixpoint insert_pair {V} (e : Z * V) (l : list (Z * V)) : list (Z * V) :=
  match l with
  | [] => [e]
  | f :: r => if fst e <=? fst f then e :: l else f :: insert_pair e r
  end.
Definition sort_pairs {V} (l : list (Z * V)) : list (Z * V) := fold_right insert_pair [] l.
(** 12-18: the loop.  [last] is last_id and count is the length of the last run
    (they change together); [res] is the result so far. *)
Fixpoint combine_loop {V} (chunk : Z) (last : option Z) (count : Z) (res : list (Z * list V)) (l : list (Z * V)) : list (Z * list V) :=
  match l with
  | [] => res
  | (i, v) :: l =>
      if negb (match last with Some x => x =? i - 1 | None => false end) || (chunk <=? count) then
        combine_loop chunk (Some i) 1 (res ++ [(i, [v])]) l
      else combine_loop chunk (Some i) (count + 1)
             (match rev res with (f, vs) :: r => rev r ++ [(f, vs ++ [v])] | [] => res end) l
  end.
(** 7-19 *)
Definition combine_ranges {V} (chunk : Z) (values : list (Z * V)) : list (Z * list V) :=
  combine_loop chunk None 0 [] (sort_pairs values).

(** 256-266 BaseCosts.get_sprites; costs is a dictionary. *)
Definition base_costs (costs : list (Z * pv)) : list define :=
  map (fun r => mkDef 8 (fst r) (len (snd r)) [("basecost", snd r)]) (combine_ranges 255 costs).

(** 114-151 DISABLE_INFO; NO_CLIMATE is 0. *)
Definition DISABLE_INFO : list (Z * (Z * list (string * pv))) :=
  [(0, (116, [("climates_available", VInt 0)])); (1, (88, [("climates_available", VInt 0)]));
   (2, (11, [("climates_available", VInt 0)])); (3, (41, [("climates_available", VInt 0)]));
   (7, (110, [("substitute", VInt 255)])); (10, (37, [("substitute_type", VInt 255)]));
   (11, (27, [("bit_number", VInt 255); ("label", VInt 0)]))].
(** The ids argument: None, an int, a list, or an iterator, which can be read
    only once. *)
Inductive ids_arg := IdsNone | IdsInt (n : Z) | IdsList (l : list Z) | IdsIterator (l : list Z).
(** 153-161 __init__: the ids kept; all(...) reads an iterator to its end. *)
Definition disable_init (feature : Z) (ids : ids_arg) : option ids_arg :=
  do _ <- dict_get Z.eqb DISABLE_INFO feature;
  Some (match ids with IdsInt n => IdsList [n] | IdsIterator _ => IdsIterator [] | i => i end).
(** 163-177 get_sprites *)
Definition zrange (n : Z) : list Z := map Z.of_nat (seq 0 (Z.to_nat n)).
Definition disable_default (feature : Z) (ids : ids_arg) : option (list define) :=
  do ids <- disable_init feature ids;
  do info <- dict_get Z.eqb DISABLE_INFO feature;
  let (count, props) := info in
  let ids := match ids with IdsNone => zrange count | IdsInt n => [n] | IdsList l | IdsIterator l => l end in
  Some (map (fun r => mkDef feature (fst r) (len (snd r)) (map (fun p => (fst p, map (fun _ => snd p) (snd r))) props))
         (combine_ranges 255 (map (fun x => (x, tt)) ids))).

(** ** train.py *)
(** 84-113 _calc_length_articulation: (shorten_by, articulated shorten_by);
    [own] is self.length.  The liveries are left out. *)
Definition calc_articulation (own : option Z) (length : option Z) (shorten_by : option Z) : option (option Z * option Z) :=
  match length with
  | None => Some (shorten_by, None)
  | Some length =>
      do! (length <=? 24);
      if length <=? 8 then Some (Some (8 - length), None)
      else
        do own <- own;
        if own mod 2 =? 1 then Some (Some (8 - 7), Some (8 - (length - 7) / 2))
        else Some (Some (8 - 8), Some (8 - (length - 8) / 2))
  end.
(** A train: self.length, and the shorten_by properties of the head and of the
    articulated parts (self._articulated_parts), in order. *)
Record train := mkTrain { tr_length : option Z; tr_head : option Z; tr_parts : list (option Z) }.
(** 40-71 Train.__init__ with 73-87 _add_auto_articulated_parts and 115-121. *)
Definition train_init (length shorten_by : option Z) : option train :=
  do! (negb (match length, shorten_by with Some _, Some _ => true | _, _ => false end));
  do (mid, art) <- calc_articulation length length shorten_by;
  Some (match art with
        | Some a => mkTrain length (Some a) [mid; Some a]
        | None => mkTrain length (match mid with Some m => Some m | None => shorten_by end) []
        end).
(** 123-175 add_articulated_part; a part without length keeps its shorten_by. *)
Definition add_part (t : train) (length shorten_by : option Z) : option train :=
  do! (negb (match length, shorten_by with Some _, Some _ => true | _, _ => false end));
  do (mid, art) <- calc_articulation (tr_length t) length shorten_by;
  Some (match art with
        | None => mkTrain (tr_length t) (tr_head t) (tr_parts t ++ [mid])
        | Some a => mkTrain (tr_length t) (tr_head t) (tr_parts t ++ [Some a; mid; Some a])
        end).

(** ** colour.py *)
(** 185-212 *)
Definition adjust_brightness (c : Z * Z * Z) (brightness : Z) : Z * Z * Z :=
  if brightness =? 128 then c
  else
    let '(r, g, b) := c in
    let combined := Z.lor (Z.lor (Z.shiftl r 32) (Z.shiftl g 16)) b * brightness in
    let r := Z.land (Z.shiftr combined 39) 511 in
    let g := Z.land (Z.shiftr combined 23) 511 in
    let b := Z.land (Z.shiftr combined 7) 511 in
    if Z.land combined 140739635871744 =? 0 then (r, g, b)
    else
      let ob := (if 255 <? r then r - 255 else 0) + (if 255 <? g then g - 255 else 0) + (if 255 <? b then b - 255 else 0) in
      let ob := ob / 2 in
      let adj x := if 255 <=? x then 255 else Z.min (x + ob * (255 - x) / 256) 255 in
      (adj r, adj g, adj b).

(** ** vehicle.py *)
(** 114-130 VariantGroup: a vehicle (an object, by identity) or a group with a
    name and items. *)
Inductive vitem := VVeh (v : nat) | VGroup (name : option string) (items : list vitem).
(** 115-121: the checks of VariantGroup.__init__, for all groups. *)
Definition group_items_ok (items : list vitem) : bool :=
  (2 <=? len items) && match items with VGroup _ _ :: _ => false | _ => true end.
Fixpoint vitem_ok (e : vitem) : bool :=
  match e with
  | VVeh _ => true
  | VGroup _ items => group_items_ok items && (fix all l := match l with [] => true | x :: l => vitem_ok x && all l end) items
  end.
(** 123-128 first *)
Fixpoint first_of (e : vitem) : option nat :=
  match e with
  | VVeh v => Some v
  | VGroup _ items => match items with x :: _ => first_of x | [] => None end
  end.
(** 134-170: the state built by process: flat_order, _variant_group,
    _variant_callbacks. *)
Record order_state := mkOrd { o_flat : list nat; o_group : list (nat * nat); o_names : list (nat * list (Z * string)) }.
Definition dict_del {V} (d : list (nat * V)) (k : nat) : list (nat * V) := filter (fun e => negb (Nat.eqb (fst e) k)) d.
(** 143-166 process for one element; {**callbacks, level: name}; [group] is the
    first vehicle of the enclosing group.  The pop of 160 raises when there is no
    entry, but the group's first vehicle has just been given one. *)
Fixpoint process (group : option nat) (level : Z) (callbacks : list (Z * string)) (e : vitem) (s : order_state) : option order_state :=
  match e with
  | VGroup name items =>
      do x <- first_of e;
      let cb := match name with Some n => dict_set Z.eqb callbacks level n | None => callbacks end in
      do s <- (fix go (l : list vitem) (s : order_state) : option order_state :=
                 match l with [] => Some s | i :: l => do s <- process (Some x) (level + 1) cb i s; go l s end) items s;
      Some (match group with
            | Some g => mkOrd (o_flat s) (dict_set Nat.eqb (o_group s) x g) (o_names s)
            | None => mkOrd (o_flat s) (dict_del (o_group s) x) (o_names s)
            end)
  | VVeh v =>
      Some (mkOrd (o_flat s ++ [v])
              (match group with Some g => dict_set Nat.eqb (o_group s) v g | None => o_group s end)
              (match callbacks with [] => o_names s | _ => dict_set Nat.eqb (o_names s) v callbacks end))
  end.
Fixpoint process_all (l : list vitem) (s : order_state) : option order_state :=
  match l with [] => Some s | e :: l => do s <- process None 0 [] e s; process_all l s end.
(** 133-170 __init__; without any vehicle the feature is unknown (168-169). *)
Definition purchase_order (l : list vitem) : option order_state :=
  do! (forallb vitem_ok l);
  do s <- process_all l (mkOrd [] [] []);
  do! (negb (len (o_flat s) =? 0));
  Some s.
(** 172-182 set_variant_callbacks: the ranges of the switch for one vehicle;
    [text] gives the string ids. *)
Definition variant_ranges (text : string -> Z) (names : list (Z * string)) : list (Z * Z) :=
  fold_left (fun d e => dict_set Z.eqb d (Z.lor 32 (Z.shiftl (fst e) 8)) (text (snd e))) names [].
(** 184-207 get_sprites; [vid] is g.resolve_id of the vehicle's id. *)
Fixpoint order_sprites (feature : Z) (vid : nat -> Z) (group : list (nat * nat)) (prev : option nat) (l : list nat) : list define :=
  match l with
  | [] => []
  | v :: l =>
      let sort := match prev with Some p => [("sort_purchase_list", [VInt (vid p)])] | None => [] end in
      let variant := match dict_get Nat.eqb group v with Some g => [("variant_group", [VInt (vid g)])] | None => [] end in
      let props := sort ++ variant in
      match props with
      | [] => order_sprites feature vid group (Some v) l
      | _ => mkDef feature (vid v) 1 props :: order_sprites feature vid group (Some v) l
      end
  end.
Definition get_sprites (feature : Z) (vid : nat -> Z) (s : order_state) : list define :=
  order_sprites feature vid (o_group s) None (rev (o_flat s)).
