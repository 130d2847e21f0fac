(** Vehicles of the library: grf/lib/vehicle.py:61-111, rv.py, ship.py and
    train.py.  Definitions only.

    Sprites are told apart by identity (a number); -1 is grf.EMPTY_SPRITE.  The
    user's callbacks are given as a callback manager (CallbackModel); what the
    library assigns is applied to it as further statements.  Not modelled: the
    dictionaries the liveries come in (a missing name or sprites raises),
    properties that are not integers, flags for the spare names of Train
    (visual_effect_and_powered and the like), typeguard, messages. *)
From Coq Require Import ZArith List Bool String.
From Verif Require Import Base RecordsModel DecodeModel VA2Model VA2Vars ParserModel CallbackModel LibModel.
Import ListNotations.
Open Scope string_scope.
Open Scope list_scope.
Open Scope Z_scope.

Definition EMPTY : Z := -1.
Record livery := mk_livery { l_name : string; l_sprites : list Z }.

(** What the library builds for a callback: a layout that is written where it
    is first used, the purchase layout that is listed (vehicle.py:101), a
    switch, an integer, or something of the user's. *)
Inductive hobj :=
| HLayout (set : Z)
| HListed (set : Z)
| HSwitch (related : bool) (code : bytes) (ranges : list (Z * hobj)) (default : hobj)
| HInt (v : Z)
| HUser (v : vobj).

(** The records of get_sprites: Action 1, a real sprite, the listed layout, the
    names, Action 0 and Action 3 with the objects made for it (by identity). *)
Inductive vrec :=
| RSets (set_count sprite_count : Z)
| RReal (s : Z)
| RLayout (set : Z)
| RName (id : Z)
| RDefine (id : Z) (props : list (string * Z))
| RMap (id : Z) (m : option target * list (Z * target)) (objs : list (Z * hobj)).

(** Identities of the objects the library makes; the user's are not
    negative. *)
Definition O_PURCHASE : Z := -1.
Definition O_GRAPHICS : Z := -2.
Definition O_TEXT : Z := -3.
Definition O_SPEED : Z := -4.
Definition O_NAMES : Z := -5.
Definition O_SOUND : Z := -6.
Definition O_PARTS : Z := -7.
Definition new (o : Z) : option vobj := Some (mk_vobj o None).

(** enumerate(l). *)
Fixpoint enum_from {A} (i : Z) (l : list A) : list (Z * A) :=
  match l with [] => [] | x :: l => (i, x) :: enum_from (i + 1) l end.
Definition enum {A} (l : list A) : list (Z * A) := enum_from 0 l.

(** vehicle.py:79-87 _validate_liveries. *)
Definition valid_liveries (ls : list livery) : bool := forallb (fun l => len (l_sprites l) =? 8) ls.

(** A vehicle while it is built: records and objects so far, the manager. *)
Record vst := mk_vst { s_recs : list vrec; s_objs : list (Z * hobj); s_man : manager }.

(** self.callbacks.n = object, self.callbacks.graphics.default = object. *)
Definition put (f : Z) (ev : event) (o : Z) (h : hobj) (st : vst) : option vst :=
  do m <- apply_event f (s_man st) ev; Some (mk_vst (s_recs st) (dict_set Z.eqb (s_objs st) o h) m).
Definition emit (l : list vrec) (st : vst) : vst := mk_vst (s_recs st ++ l) (s_objs st) (s_man st).

(** self.callbacks.graphics.default, read. *)
Definition graphics_default (st : vst) : option vobj := c_default (fst (descr_get (0, CGraphics) (m_callbacks (s_man st)))).
Definition graphics_obj (st : vst) : option hobj :=
  do v <- graphics_default st;
  Some (match dict_get Z.eqb (s_objs st) (v_id v) with Some h => h | None => HUser v end).

(** vehicle.py:95-105 _gen_purchase_sprites; SpriteSet(count=1) is an Action 1
    with one set of one sprite (actions.py:1517-1519). *)
Definition gen_purchase (f : Z) (sprite : option Z) (st : vst) : option vst :=
  match sprite with
  | None => Some st
  | Some s => put f (EField "graphics" true (new O_PURCHASE)) O_PURCHASE (HListed 0) (emit [RSets 1 1; RReal s; RLayout 0] st)
  end.

(** vehicle.py:107-110 _set_callbacks; [text] is g.strings.add(..).get_global_id(). *)
Definition set_text (f : Z) (text : string -> Z) (t : option string) (st : vst) : option vst :=
  match t with
  | None => Some st
  | Some t => put f (EAssign "additional_text" (ARaw (new O_TEXT))) O_TEXT (HInt (text t)) st
  end.

(** rv.py:71-90, ship.py:57-76: the layouts; a switch over the subtype if
    there are several. *)
Definition livery_graphics (related : bool) (code : bytes) (ls : list livery) : hobj :=
  let layouts := map (fun e => HLayout (fst e)) (enum ls) in
  if 1 <? len ls then HSwitch related code (enum layouts) (HLayout 0) else HLayout 0.
(** rv.py:94-100, ship.py:80-86, train.py:219-224. *)
Definition livery_names (text : string -> Z) (ls : list livery) : hobj :=
  HSwitch false (nm "cargo_subtype") (map (fun e => (fst e, HInt (text (l_name (snd e))))) (enum ls)) (HInt 1024).
Definition set_names (f : Z) (text : string -> Z) (ls : list livery) (st : vst) : option vst :=
  if 1 <? len ls then put f (EAssign "cargo_subtype_text" (ARaw (new O_NAMES))) O_NAMES (livery_names text ls) st else Some st.
(** rv.py:113-121: Action 1 and all the sprites. *)
Definition livery_records (ls : list livery) : list vrec :=
  RSets (len ls) 8 :: map RReal (flat_map l_sprites ls).

(** {**a, **b}. *)
Definition merge (a b : list (string * Z)) : list (string * Z) :=
  fold_left (fun d kv => dict_set String.eqb d (fst kv) (snd kv)) b a.

(** make_map_action, lib/callback.py:634-643; vehicles always have a
    default. *)
Definition make_map (f : Z) (id : Z) (st : vst) : option vst :=
  do m <- make_switch f (s_man st);
  Some (match fst m with None => st | Some _ => emit [RMap id m (s_objs st)] st end).

(** ---- Road vehicles and ships: rv.py, ship.py ---- *)

(** rv.py:8-11 Speed: the value in units of 4. *)
Definition speed_value (precise : Z) : Z := (precise + 2) / 4.
(** rv.py:22-29. *)
Definition rv_kmhish (speed : Z) : Z := speed * 2.
Definition rv_mph (speed : Z) : Z := (speed * 16 + 4) / 5.

Record vehicle := mk_vehicle {
  v_vid : Z; v_liveries : list livery; v_purchase : option Z; v_text : option string;
  v_props : list (string * Z); v_manager : manager }.

(** rv.py:52-65 _set_callbacks, after that of Vehicle. *)
Definition set_speed (precise : Z) (st : vst) : option vst :=
  if 1024 <=? precise then
    do d <- graphics_obj st;
    put 1 (EAssign "change_properties" (ARaw (new O_SPEED))) O_SPEED
        (HSwitch false (nm "extra_callback_info1_byte") [(21, HInt (speed_value precise))] d) st
  else Some st.

(** rv.py:31-50 __init__: the length; the properties become those of the
    Define. *)
Definition rv_props (length : option Z) (props : list (string * Z)) : option (list (string * Z)) :=
  match length with
  | None => Some props
  | Some l =>
      do! ((1 <=? l) && (l <=? 8));
      do! (negb (is_some (dict_get String.eqb props "shorten_by")));
      Some (dict_set String.eqb props "shorten_by" (8 - l))
  end.

(** The common part of rv.py:67-123 and ship.py:53-111; [extra] is what is set
    in between and [own] the properties of the class. *)
Definition vehicle_sprites (f : Z) (text : string -> Z) (extra : vst -> option vst) (own : list (string * Z)) (v : vehicle)
  : option (list vrec) :=
  do! (valid_liveries (v_liveries v));
  do st <- gen_purchase f (v_purchase v) (mk_vst [] [] (v_manager v));
  do st <- (match v_liveries v with
            | [] => Some st
            | ls => put f (EField "graphics" false (new O_GRAPHICS)) O_GRAPHICS (livery_graphics true (nm "cargo_subtype") ls) st
            end);
  do st <- set_text f text (v_text v) st;
  do st <- extra st;
  do st <- set_names f text (v_liveries v) st;
  do props <- set_flag_props f (s_man st) (v_props v);
  let st := emit [RName (v_vid v); RDefine (v_vid v) (merge own props)] st in
  let st := match v_liveries v with [] => st | ls => emit (livery_records ls) st end in
  do st <- make_map f (v_vid v) st;
  Some (s_recs st).

Definition rv_sprites (text : string -> Z) (precise : Z) (v : vehicle) : option (list vrec) :=
  vehicle_sprites 1 text (set_speed precise)
    [("sprite_id", 255); ("precise_max_speed", Z.min precise 255); ("max_speed", Z.min (speed_value precise) 255)] v.
Definition ship_sprites (text : string -> Z) (max_speed : Z) (v : vehicle) : option (list vrec) :=
  vehicle_sprites 2 text (fun st => Some st) [("sprite_id", 255); ("max_speed", max_speed)] v.

(** ---- Trains: train.py ---- *)

(** Ids are integers or strings; 83-84 make strings from them. *)
Inductive pid := PInt (n : Z) | PStr (s : string) | PMid (p : pid) | PTail (p : pid).
(** An entry of self._articulated_parts. *)
Record part := mk_part { p_id : pid; p_liveries : list livery; p_manager : manager; p_props : list (string * Z) }.
Record train_v := mk_train {
  t_id : pid; t_speed : Z; t_weight : Z; t_length : option Z; t_sounds : list (Z * Z);
  t_liveries : list livery; t_head : list livery; t_purchase : option Z; t_text : option string;
  t_props : list (string * Z); t_manager : manager; t_parts : list part }.

(** 101-111: the invisible liveries. *)
Definition empty_liveries (ls : list livery) : list livery :=
  match ls with
  | [] => [mk_livery "Default" (repeat EMPTY 8)]
  | _ => map (fun l => mk_livery (l_name l) (repeat EMPTY 8)) ls
  end.

(** An optional property to set. *)
Definition with_shorten (shorten : option Z) (props : list (string * Z)) : list (string * Z) :=
  match shorten with Some s => dict_set String.eqb props "shorten_by" s | None => props end.

(** 73-84 _add_auto_articulated_parts; the parts get a fresh manager. *)
Definition no_callbacks (f : Z) : option manager := make_manager f (ARaw None) [] [].
Definition copied (own props : list (string * Z)) : list (string * Z) :=
  let art := match dict_get String.eqb own "misc_flags" with
             | Some fl => [("misc_flags", Z.land fl (Z.lor (Z.lor 1 4) 2))] | None => [] end in
  let art := match dict_get String.eqb props "track_type" with Some x => art ++ [("track_type", x)] | None => art end in
  match dict_get String.eqb props "power" with Some x => art ++ [("power", x)] | None => art end.
Definition auto_parts (own : list (string * Z)) (id : pid) (mid : option Z) (ls : list livery) (art : Z) (als : list livery)
  (props : list (string * Z)) : option (list part) :=
  do m <- no_callbacks 0;
  let ap := copied own props in
  Some [mk_part (PMid id) ls m (with_shorten mid ap); mk_part (PTail id) als m (with_shorten (Some art) ap)].

(** 40-71 __init__. *)
Definition train_new (id : pid) (max_speed weight : Z) (length : option Z) (sounds : list (Z * Z)) (liveries : list livery)
  (m : manager) (purchase : option Z) (text : option string) (props : list (string * Z)) : option train_v :=
  do! (valid_liveries liveries);
  do! (is_some (dict_get String.eqb props "engine_class"));
  let sb := dict_get String.eqb props "shorten_by" in
  do! (negb (is_some length && is_some sb));
  do (mid, art) <- calc_articulation length length sb;
  match art with
  | Some a =>
      let als := empty_liveries liveries in
      let props := dict_set String.eqb props "shorten_by" a in
      do ps <- auto_parts props id mid liveries a als props;
      Some (mk_train id max_speed weight length sounds liveries als purchase text props m ps)
  | None => Some (mk_train id max_speed weight length sounds liveries liveries purchase text (with_shorten mid props) m [])
  end.

(** 138-155 ALLOWED_PROPS. *)
Definition allowed_props : list string :=
  ["cargo_capacity"; "loading_speed"; "default_cargo_type"; "refit_cost"; "refittable_cargo_types"; "shorten_by";
   "visual_effect_and_powered"; "bitmask_vehicle_info"; "misc_flags"; "refittable_cargo_classes"; "non_refittable_cargo_classes";
   "cargo_age_period"; "cargo_allow_refit"; "cargo_disallow_refit"; "curve_speed_mod"; "power"].
Definition truthy (props : list (string * Z)) (n : string) : bool :=
  match dict_get String.eqb props n with Some x => negb (x =? 0) | None => false end.

(** 121-175 add_articulated_part. *)
Definition add_articulated_part (skip_check : bool) (id : pid) (liveries : list livery) (m : manager) (length weight : option Z)
  (props : list (string * Z)) (t : train_v) : option train_v :=
  do! (skip_check ||
       (match id with PInt n => n <? 16384 | _ => true end && negb (truthy (t_props t) "is_dual_headed")
        && negb (is_some length && is_some (dict_get String.eqb props "shorten_by"))
        && forallb (fun kv => existsb (String.eqb (fst kv)) allowed_props) props));
  let props := match weight with
               | Some _ => dict_set String.eqb (dict_set String.eqb props "weight_low" (t_weight t mod 256)) "weight_high" (t_weight t / 256)
               | None => props end in
  do (mid, art) <- calc_articulation (t_length t) length (dict_get String.eqb props "shorten_by");
  do ps <- (match art with
            | None => Some [mk_part id liveries m (with_shorten mid props)]
            | Some a =>
                let als := empty_liveries liveries in
                do ps <- auto_parts (t_props t) id mid liveries a als props;
                Some (mk_part id als m (with_shorten (Some a) props) :: ps)
            end);
  Some (mk_train (t_id t) (t_speed t) (t_weight t) (t_length t) (t_sounds t) (t_liveries t) (t_head t) (t_purchase t) (t_text t)
                 (t_props t) (t_manager t) (t_parts t ++ ps)).

(** 194-200 the code that asks the first vehicle for its subtype. *)
Definition part_code (position : Z) : bytes :=
  nm "
                TEMP[0x10F]=-" ++ str_nat position ++ nm "
                var(0x61, param=0xF2, shift=0, and=0xFF)
            ".
(** 177-207 _make_graphics. *)
Definition make_graphics (f : Z) (ls : list livery) (position : Z) (st : vst) : option vst :=
  match ls with
  | [] => Some st
  | _ => put f (EField "graphics" false (new O_GRAPHICS)) O_GRAPHICS
             (livery_graphics false (if 0 <? position then part_code position else nm "cargo_subtype") ls)
             (emit (livery_records ls) st)
  end.

(** 226-238: sounds and articulated parts; [rid] is g.resolve_id. *)
Definition set_sounds (sounds : list (Z * Z)) (st : vst) : option vst :=
  match sounds with
  | [] => Some st
  | _ =>
      do d <- graphics_obj st;
      put 0 (EAssign "sound_effect" (ARaw (new O_SOUND))) O_SOUND
          (HSwitch false (nm "extra_callback_info1_byte") (map (fun e => (fst e, HInt (snd e))) sounds) d) st
  end.
Definition set_parts (rid : pid -> Z) (ps : list part) (st : vst) : option vst :=
  match ps with
  | [] => Some st
  | _ => put 0 (EAssign "articulated_part" (ARaw (new O_PARTS))) O_PARTS
             (HSwitch false (nm "extra_callback_info1_byte") (map (fun e => (fst e + 1, HInt (rid (p_id (snd e))))) (enum ps)) (HInt 32767)) st
  end.

(** 245-249 _gen_purchase_sprites; the liveries have been validated. *)
Definition train_purchase (t : train_v) : option (option Z) :=
  match t_purchase t, t_liveries t with
  | None, l :: _ => if 8 <? match t_length t with Some n => if n =? 0 then 8 else n | None => 8 end
                    then do s <- nth_error (l_sprites l) 6; Some (Some s) else Some None
  | p, _ => Some p
  end.

(** 285-311, one articulated part. *)
Definition part_records (rid : pid -> Z) (engine_class : list (string * Z)) (position : Z) (p : part) : option (list vrec) :=
  do st <- make_graphics 0 (p_liveries p) position (mk_vst [] [] (p_manager p));
  do props <- set_flag_props 0 (s_man st) (p_props p);
  do st <- make_map 0 (rid (p_id p)) (emit [RDefine (rid (p_id p)) (merge (("sprite_id", 253) :: engine_class) props)] st);
  Some (s_recs st).
Fixpoint parts_records (rid : pid -> Z) (engine_class : list (string * Z)) (position : Z) (ps : list part) : option (list vrec) :=
  match ps with
  | [] => Some []
  | p :: ps => do l <- part_records rid engine_class position p; do r <- parts_records rid engine_class (position + 1) ps; Some (l ++ r)
  end.

(** 252-313 get_sprites; a part's 'engine_class' is the train's, which is
    there (48-51). *)
Definition train_sprites (rid : pid -> Z) (text : string -> Z) (t : train_v) : option (list vrec) :=
  do! (negb (truthy (t_props t) "is_dual_headed" && negb (len (t_parts t) =? 0)));
  do ps <- train_purchase t;
  do st <- gen_purchase 0 ps (mk_vst [] [] (t_manager t));
  do st <- make_graphics 0 (t_head t) 0 st;
  do st <- set_text 0 text (t_text t) st;
  do st <- set_names 0 text (t_liveries t) st;
  do st <- set_sounds (t_sounds t) st;
  do st <- set_parts rid (t_parts t) st;
  do props <- set_flag_props 0 (s_man st) (t_props t);
  let id := rid (t_id t) in
  let own := [("sprite_id", 253); ("max_speed", t_speed t); ("weight_low", t_weight t mod 256); ("weight_high", t_weight t / 256)] in
  do st <- make_map 0 id (emit [RName id; RDefine id (merge own props)] st);
  do ec <- dict_get String.eqb (t_props t) "engine_class";
  do r <- parts_records rid [("engine_class", ec)] 1 (t_parts t);
  Some (s_recs st ++ r).

(** ---- ship.py: the tables and _check_speed ---- *)

(** ship.py:5-6, as the formulas the literals follow (checked by a script). *)
Definition ship_kmh_table (i : Z) : Z := if i <=? 171 then 2 * i else 2 * i - 2.
Definition ship_mph_table (i : Z) : Z := 2 * ((i * 16 + 9) / 10).
(** 8-13 _check_speed: both tables have 256 entries; an index past the end
    raises too. *)
Definition check_speed (speed : Z) (array : Z -> Z) : option Z :=
  do! (0 <=? speed); do! (speed <=? 256); do! (speed <? 256); Some (array speed).
Definition ship_kmh (speed : Z) : option Z := check_speed speed ship_kmh_table.
Definition ship_kmhish (speed : Z) : Z := speed / 2.
Definition ship_mph (speed : Z) : option Z := check_speed speed ship_mph_table.

(** lib/object.py:24-25: the size property. *)
Definition object_size (x y : Z) : Z := Z.lor (Z.shiftl y 4) x.
