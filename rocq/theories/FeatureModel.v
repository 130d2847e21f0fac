(** Model of the registry of features and of new features for development
    versions of the game (grf/common.py 121-180, grf/dev.py 6-17).
    Definitions only.

    Feature objects are told apart by a number of their own ([f_obj]): they
    are dictionary keys by identity.  Of a variable only the three entries the
    inverse table is made of are modelled; sizes are not negative. *)
From Coq Require Import ZArith List Bool String.
From Verif Require Import Base DecodeModel TreeModel.
Import ListNotations.
Open Scope Z_scope.

(** Python dictionaries: d[k] = v, and d[k] with None for the KeyError. *)
Fixpoint put {K V} (eqb : K -> K -> bool) (k : K) (v : V) (d : list (K * V)) : list (K * V) :=
  match d with
  | [] => [(k, v)]
  | (k', v') :: d => if eqb k k' then (k', v) :: d else (k', v') :: put eqb k v d
  end.
Fixpoint get {K V} (eqb : K -> K -> bool) (k : K) (d : list (K * V)) : option V :=
  match d with [] => None | (k', v) :: d => if eqb k k' then Some v else get eqb k d end.
(** {k: v for ...}, and {**d, **l} *)
Definition puts {K V} (eqb : K -> K -> bool) (d l : list (K * V)) : list (K * V) :=
  fold_left (fun d e => put eqb (fst e) (snd e) d) l d.

Fixpoint name_eqb (a b : bytes) : bool :=
  match a, b with
  | [], [] => true
  | x :: a, y :: b => (x =? y) && name_eqb a b
  | _, _ => false
  end.
Definition key_eqb (a b : Z * Z * Z) : bool :=
  let '(a1, a2, a3) := a in let '(b1, b2, b3) := b in (a1 =? b1) && (a2 =? b2) && (a3 =? b3).

(** common.py:129-133 Feature.__init__: the constant is name.upper(). *)
Record feat := { f_id : Z; f_name : bytes; f_class : bytes; f_obj : nat }.
Definition upper (c : Z) : Z := if is_lower c then c - 32 else c.
Definition constant (f : feat) : bytes := map upper (f_name f).
(** 135-136 Feature.__repr__ *)
Definition feature_repr (f : feat) : bytes := constant f.

Record variable := { v_var : Z; v_start : Z; v_size : Z }.

(** FeatureMeta.FEATURES, Feature._FROM_NAME, VEHICLE_FEATURES, ACTION0_PROPS,
    ACTION0_PROP_DICT, VA2_VARS and VA2_VARS_INV; [next] numbers objects. *)
Record registry := {
  FEATURES : list (Z * feat);
  FROM_NAME : list (bytes * feat);
  VEHICLES : list nat;
  PROPS : list (nat * list (Z * (bytes * Z)));
  PROP_DICT : list (nat * list (bytes * (Z * Z)));
  VARS : list (nat * list (bytes * variable));
  VARS_INV : list (nat * list ((Z * Z * Z) * bytes));
  next : nat }.

(** 122-123 FeatureMeta.__call__: Feature(id); 139-140 from_name. *)
Definition Feature (r : registry) (id : Z) : option feat := get Z.eqb id (FEATURES r).
Definition from_name (r : registry) (n : bytes) : option feat := get name_eqb n (FROM_NAME r).
(** 143-144 from_constant, which has no return statement: None is KeyError,
    Some None python's None. *)
Definition from_constant (r : registry) (c : bytes) : option (option feat) :=
  do _ <- from_name r (map lower c); Some None.

(** dev.py:15 the key of a variable. *)
Definition var_key (v : variable) : Z * Z * Z := (v_var v, v_start v, Z.shiftl 1 (v_size v) - 1).
(** dev.py:6-17 add_feature; [globals] is NML_VA2_GLOBALVARS. *)
Definition add_feature (globals : list (bytes * variable)) (r : registry) (id : Z) (name class_name : bytes)
  (properties : list (Z * (bytes * Z))) (variables : list (bytes * variable)) (is_vehicle : bool) : registry :=
  let obj := {| f_id := id; f_name := name; f_class := class_name; f_obj := next r |} in
  let vars := puts name_eqb globals variables in
  {| FEATURES := put Z.eqb id obj (FEATURES r);
     FROM_NAME := put name_eqb name obj (FROM_NAME r);
     VEHICLES := if is_vehicle then next r :: VEHICLES r else VEHICLES r;
     PROPS := put Nat.eqb (next r) properties (PROPS r);
     PROP_DICT := put Nat.eqb (next r) (puts name_eqb [] (map (fun e => (fst (snd e), (fst e, snd (snd e)))) properties)) (PROP_DICT r);
     VARS := put Nat.eqb (next r) vars (VARS r);
     VARS_INV := put Nat.eqb (next r) (puts key_eqb [] (map (fun e => (var_key (snd e), fst e)) vars)) (VARS_INV r);
     next := S (next r) |}.

(** common.py:149-171 the features of the game. *)
Definition GAME_FEATURES : list (Z * bytes * bytes) :=
  [(0, bs "train", bs "Train"); (1, bs "rv", bs "RV"); (2, bs "ship", bs "Ship"); (3, bs "aircraft", bs "Aircraft");
   (4, bs "station", bs "Station"); (5, bs "canal", bs "Canal"); (6, bs "bridge", bs "Bridge"); (7, bs "house", bs "House");
   (8, bs "global_var", bs "GlobalVar"); (9, bs "industry_tile", bs "IndustryTile"); (10, bs "industry", bs "Industry");
   (11, bs "cargo", bs "Cargo"); (12, bs "sound_effect", bs "SoundEffect"); (13, bs "airport", bs "Airport");
   (14, bs "signal", bs "Signal"); (15, bs "object", bs "Object"); (16, bs "railtype", bs "Railtype");
   (17, bs "airport_tile", bs "AirportTile"); (18, bs "roadtype", bs "Roadtype"); (19, bs "tramtype", bs "Tramtype");
   (20, bs "road_stop", bs "RoadStop")].
(** common.py:148-174 the loop that makes them, in the order of the table:
    each goes into both dictionaries. *)
Definition game_objects : list feat :=
  map (fun e => let '(k, (id, name, cls)) := e in {| f_id := id; f_name := name; f_class := cls; f_obj := k |})
      (combine (seq 0 (List.length GAME_FEATURES)) GAME_FEATURES).
(** 176-180 the module constants: the values of FEATURES in order, CANAL, and
    VEHICLE_FEATURES.  The tables of properties and variables of the game's
    own features are left out (empty). *)
Definition MODULE_NAMES : list bytes :=
  [bs "TRAIN"; bs "RV"; bs "SHIP"; bs "AIRCRAFT"; bs "STATION"; bs "RIVER"; bs "BRIDGE"; bs "HOUSE"; bs "GLOBAL_VAR"; bs "INDUSTRY_TILE";
   bs "INDUSTRY"; bs "CARGO"; bs "SOUND_EFFECT"; bs "AIRPORT"; bs "SIGNAL"; bs "OBJECT"; bs "RAILTYPE"; bs "AIRPORT_TILE"; bs "ROADTYPE";
   bs "TRAMTYPE"; bs "ROAD_STOP"].
Definition game : registry :=
  let features := puts Z.eqb [] (map (fun f => (f_id f, f)) game_objects) in
  {| FEATURES := features;
     FROM_NAME := puts name_eqb [] (map (fun f => (f_name f, f)) game_objects);
     VEHICLES := map (fun e => f_obj (snd e)) (firstn 4 features);
     PROPS := []; PROP_DICT := []; VARS := []; VARS_INV := []; next := List.length GAME_FEATURES |}.
Definition module_constants (r : registry) : list (bytes * feat) :=
  let names := combine MODULE_NAMES (map snd (FEATURES r)) in
  match get name_eqb (bs "RIVER") names with
  | Some river => names ++ [(bs "CANAL", river)]
  | None => names
  end.
