(** Callback managers: grf/lib/callback.py.  Definitions only.

    The objects a user hooks up (switches, layouts, integers, references) are
    represented by an identity and what get_ref_id (grf/actions.py:50-57)
    answers for them; a switch or layout that was not numbered yet answers
    None.  A Python exception is [None]. *)
From Coq Require Import ZArith List Bool String.
From Verif Require Import Base RecordsModel.
Import ListNotations.
Open Scope string_scope.
Open Scope list_scope.
Open Scope Z_scope.

Record vobj := mk_vobj { v_id : Z; v_ref : option Z }.
Definition opt_eqb (a b : option Z) : bool :=
  match a, b with Some x, Some y => x =? y | None, None => true | _, _ => false end.

(** lib/callback.py:155-206: the four callback classes.  Attributes an
    instance does not have are None (the code reads them with
    getattr(c, .., None) wherever the class is not known). *)
Inductive cbclass := CDefault | CPurchase | CDual | CGraphics.
Definition cbclass_eqb (a b : cbclass) : bool :=
  match a, b with
  | CDefault, CDefault | CPurchase, CPurchase | CDual, CDual | CGraphics, CGraphics => true
  | _, _ => false
  end.
Record cbobj := mk_cb { c_class : cbclass; c_default : option vobj; c_purchase : option vobj }.

(** 158, 171, 184-186, 198-200 the constructors. *)
Definition new_default (d : option vobj) : cbobj := mk_cb CDefault d None.
Definition new_purchase (p : option vobj) : cbobj := mk_cb CPurchase None p.
Definition new_dual (d p : option vobj) : cbobj :=
  mk_cb CDual d (match p with None => d | Some _ => p end).
Definition new_graphics (d p : option vobj) : cbobj := mk_cb CGraphics d p.

(** class_(value), as called by __set__ and __get__ with one argument. *)
Definition cls_new (c : cbclass) (v : option vobj) : cbobj :=
  match c with
  | CDefault => new_default v
  | CPurchase => new_purchase v
  | CDual => new_dual v None
  | CGraphics => new_graphics v None
  end.

(** is_set of each class: 161, 174, 188, 202. *)
Definition is_some {A} (o : option A) : bool := match o with Some _ => true | None => false end.
Definition is_set (c : cbobj) : bool :=
  match c_class c with
  | CDefault => is_some (c_default c)
  | CPurchase => is_some (c_purchase c)
  | CDual | CGraphics => is_some (c_default c) || is_some (c_purchase c)
  end.

Record cbdata := mk_cbd { cd_name : string; cd_flag : Z; cd_class : cbclass }.

(** lib/callback.py:213-258, transcribed by a script; a repeated key keeps its
    first place and its last value. *)
Definition PROPERTIES : list (Z * list (Z * (string * cbclass))) := [
  (0, [(7, ("loading_speed", CDefault));
    (9, ("max_speed", CDual));
    (11, ("power", CDual));
    (13, ("running_cost_factor", CDual));
    (20, ("cargo_capacity", CDual));
    (22, ("weight", CDual));
    (23, ("cost_factor", CDual));
    (31, ("tractive_effort_coefficient", CDual));
    (33, ("shorten_by", CDefault));
    (37, ("bitmask_vehicle_info", CDefault));
    (43, ("cargo_age_period", CDefault));
    (46, ("curve_speed_mod", CDefault))]);
  (1, [(7, ("loading_speed", CDefault));
    (9, ("running_cost_factor", CDual));
    (15, ("cargo_capacity", CDual));
    (17, ("cost_factor", CDual));
    (19, ("power", CDual));
    (20, ("weight", CDual));
    (21, ("max_speed", CDual));
    (24, ("tractive_effort_coefficient", CDual));
    (34, ("cargo_age_period", CDefault));
    (35, ("shorten_by", CDefault))]);
  (2, [(7, ("loading_speed", CDefault));
    (10, ("cost_factor", CDual));
    (11, ("max_speed", CDual));
    (13, ("cargo_capacity", CDual));
    (15, ("running_cost_factor", CDual));
    (29, ("cargo_age_period", CDefault))]);
  (3, [(7, ("loading_speed", CDefault));
    (10, ("cost_factor", CDual));
    (11, ("max_speed", CDual));
    (15, ("running_cost_factor", CDual));
    (13, ("secondary_cargo_capacity", CDual));
    (29, ("range", CDual))])].

(** lib/callback.py:277-433, transcribed by a script; a repeated key keeps its
    first place and its last value. *)
Definition CALLBACKS : list (Z * list (Z * cbdata)) := [
  (0, [(1, mk_cbd "random_trigger" 0 CDefault);
    (21, mk_cbd "cargo_capacity" 8 CDual);
    (25, mk_cbd "cargo_subtype_text" 32 CDefault);
    (35, mk_cbd "additional_text" 0 CPurchase);
    (45, mk_cbd "colour_mapping" 64 CDual);
    (49, mk_cbd "start_stop" 0 CDefault);
    (50, mk_cbd "every_32_days" 0 CDefault);
    (51, mk_cbd "sound_effect" 128 CDefault);
    (350, mk_cbd "refit_cost" 0 CDual);
    (353, mk_cbd "name" 256 CPurchase);
    (354, mk_cbd "reverse_build_probability" 0 CDefault);
    (54, mk_cbd "change_properties" 0 CDual);
    (16, mk_cbd "visual_effect_and_powered" 1 CDefault);
    (22, mk_cbd "articulated_part" 16 CDual);
    (29, mk_cbd "can_attach_wagon" 0 CDefault);
    (352, mk_cbd "create_effect" 0 CDefault)]);
  (1, [(1, mk_cbd "random_trigger" 0 CDefault);
    (21, mk_cbd "cargo_capacity" 8 CDual);
    (25, mk_cbd "cargo_subtype_text" 32 CDefault);
    (35, mk_cbd "additional_text" 0 CPurchase);
    (45, mk_cbd "colour_mapping" 64 CDual);
    (49, mk_cbd "start_stop" 0 CDefault);
    (50, mk_cbd "every_32_days" 0 CDefault);
    (51, mk_cbd "sound_effect" 128 CDefault);
    (350, mk_cbd "refit_cost" 0 CDual);
    (353, mk_cbd "name" 256 CPurchase);
    (354, mk_cbd "reverse_build_probability" 0 CDefault);
    (54, mk_cbd "change_properties" 0 CDual);
    (16, mk_cbd "visual_effect" 0 CDefault);
    (22, mk_cbd "articulated_part" 16 CDual);
    (352, mk_cbd "create_effect" 0 CDefault)]);
  (2, [(1, mk_cbd "random_trigger" 0 CDefault);
    (21, mk_cbd "cargo_capacity" 8 CDual);
    (25, mk_cbd "cargo_subtype_text" 32 CDefault);
    (35, mk_cbd "additional_text" 0 CPurchase);
    (45, mk_cbd "colour_mapping" 64 CDual);
    (49, mk_cbd "start_stop" 0 CDefault);
    (50, mk_cbd "every_32_days" 0 CDefault);
    (51, mk_cbd "sound_effect" 128 CDefault);
    (350, mk_cbd "refit_cost" 0 CDual);
    (353, mk_cbd "name" 256 CPurchase);
    (354, mk_cbd "reverse_build_probability" 0 CDefault);
    (54, mk_cbd "change_properties" 0 CDual);
    (16, mk_cbd "visual_effect" 0 CDefault)]);
  (3, [(1, mk_cbd "random_trigger" 0 CDefault);
    (21, mk_cbd "cargo_capacity" 8 CDual);
    (25, mk_cbd "cargo_subtype_text" 32 CDefault);
    (35, mk_cbd "additional_text" 0 CPurchase);
    (45, mk_cbd "colour_mapping" 64 CDual);
    (49, mk_cbd "start_stop" 0 CDefault);
    (50, mk_cbd "every_32_days" 0 CDefault);
    (51, mk_cbd "sound_effect" 128 CDefault);
    (350, mk_cbd "refit_cost" 0 CDual);
    (353, mk_cbd "name" 256 CPurchase);
    (354, mk_cbd "reverse_build_probability" 0 CDefault);
    (54, mk_cbd "change_properties" 0 CDual)]);
  (4, [(19, mk_cbd "availability" 1 CPurchase);
    (20, mk_cbd "select_sprite_layout" 2 CDual);
    (36, mk_cbd "select_tile_layout" 0 CPurchase);
    (320, mk_cbd "anim_control" 0 CDefault);
    (321, mk_cbd "anim_next_frame" 4 CDefault);
    (322, mk_cbd "anim_speed" 8 CDefault);
    (329, mk_cbd "tile_check" 16 CPurchase)]);
  (5, [(327, mk_cbd "sprite_offset" 0 CDefault)]);
  (7, [(1, mk_cbd "random_trigger" 0 CDefault);
    (23, mk_cbd "construction_check" 1 CDefault);
    (26, mk_cbd "anim_next_frame" 2 CDefault);
    (27, mk_cbd "anim_control" 4 CDefault);
    (28, mk_cbd "construction_anim" 8 CDefault);
    (30, mk_cbd "colour" 16 CDefault);
    (31, mk_cbd "cargo_amount_accept" 32 CDefault);
    (32, mk_cbd "anim_speed" 64 CDefault);
    (33, mk_cbd "destruction" 128 CDefault);
    (42, mk_cbd "cargo_type_accept" 256 CDefault);
    (46, mk_cbd "cargo_production" 512 CDefault);
    (323, mk_cbd "protection" 1024 CDefault);
    (328, mk_cbd "watched_cargo_accepted" 0 CDefault);
    (333, mk_cbd "name" 0 CDefault);
    (334, mk_cbd "foundations" 2048 CDefault);
    (335, mk_cbd "autoslope" 4096 CDefault)]);
  (9, [(1, mk_cbd "random_trigger" 0 CDefault);
    (37, mk_cbd "anim_control" 0 CDefault);
    (38, mk_cbd "anim_next_frame" 1 CDefault);
    (39, mk_cbd "anim_speed" 2 CDefault);
    (43, mk_cbd "cargo_amount_accept" 4 CDefault);
    (44, mk_cbd "cargo_type_accept" 8 CDefault);
    (47, mk_cbd "tile_check" 16 CDefault);
    (48, mk_cbd "foundations" 32 CDefault);
    (60, mk_cbd "autoslope" 64 CDefault)]);
  (10, [(34, mk_cbd "construction_probability" 1 CDefault);
    (40, mk_cbd "location_check" 8 CDefault);
    (41, mk_cbd "random_prod_change" 16 CDefault);
    (53, mk_cbd "monthly_prod_change" 32 CDefault);
    (55, mk_cbd "cargo_subtype_display" 64 CDefault);
    (56, mk_cbd "extra_text_fund" 128 CDefault);
    (58, mk_cbd "extra_text_industry" 256 CDefault);
    (59, mk_cbd "control_special" 512 CDefault);
    (61, mk_cbd "stop_accept_cargo" 1024 CDefault);
    (330, mk_cbd "colour" 2048 CDefault);
    (331, mk_cbd "input_cargo" 4096 CDefault);
    (332, mk_cbd "output_cargo" 8192 CDefault);
    (351, mk_cbd "init_production" 16384 CDefault)]);
  (11, [(57, mk_cbd "profit" 1 CDefault);
    (325, mk_cbd "station_rating" 325 CDefault)]);
  (13, [(341, mk_cbd "additional_text" 0 CDefault);
    (342, mk_cbd "layout_name" 0 CDefault)]);
  (15, [(343, mk_cbd "tile_check" 1 CPurchase);
    (344, mk_cbd "anim_next_frame" 2 CDefault);
    (345, mk_cbd "anim_control" 0 CDefault);
    (346, mk_cbd "anim_speed" 4 CDefault);
    (347, mk_cbd "colour" 8 CDefault);
    (348, mk_cbd "additional_text" 16 CPurchase);
    (349, mk_cbd "autoslope" 32 CDefault)]);
  (16, [(0, mk_cbd "gui" 0 CDefault);
    (1, mk_cbd "track_overlay" 0 CDefault);
    (2, mk_cbd "underlay" 0 CDefault);
    (3, mk_cbd "tunnels" 0 CDefault);
    (4, mk_cbd "catenary_wire" 0 CDefault);
    (5, mk_cbd "catenary_pylons" 0 CDefault);
    (6, mk_cbd "bridge_surfaces" 0 CDefault);
    (7, mk_cbd "level_crossings" 0 CDefault);
    (8, mk_cbd "depots" 0 CDefault);
    (9, mk_cbd "fences" 0 CDefault);
    (10, mk_cbd "tunnel_overlay" 0 CDefault);
    (11, mk_cbd "signals" 0 CDefault);
    (12, mk_cbd "precombined" 0 CDefault)]);
  (17, [(336, mk_cbd "foundations" 32 CDefault);
    (338, mk_cbd "anim_control" 0 CDefault);
    (339, mk_cbd "anim_next_frame" 1 CDefault);
    (340, mk_cbd "anim_speed" 2 CDefault)]);
  (18, [(0, mk_cbd "gui" 0 CDefault);
    (1, mk_cbd "track_overlay" 0 CDefault);
    (2, mk_cbd "underlay" 0 CDefault);
    (3, mk_cbd "tunnels" 0 CDefault);
    (4, mk_cbd "catenary_front" 0 CDefault);
    (5, mk_cbd "catenary_back" 0 CDefault);
    (6, mk_cbd "bridge_surfaces" 0 CDefault);
    (8, mk_cbd "depots" 0 CDefault);
    (10, mk_cbd "roadstops" 0 CDefault);
    (11, mk_cbd "direction_markings" 0 CDefault)]);
  (19, [(0, mk_cbd "gui" 0 CDefault);
    (1, mk_cbd "track_overlay" 0 CDefault);
    (2, mk_cbd "underlay" 0 CDefault);
    (3, mk_cbd "tunnels" 0 CDefault);
    (4, mk_cbd "catenary_front" 0 CDefault);
    (5, mk_cbd "catenary_back" 0 CDefault);
    (6, mk_cbd "bridge_surfaces" 0 CDefault);
    (8, mk_cbd "depots" 0 CDefault)]);
  (20, [(19, mk_cbd "availability" 1 CDefault);
    (320, mk_cbd "anim_control" 0 CDefault);
    (321, mk_cbd "anim_next_frame" 2 CDefault);
    (322, mk_cbd "anim_speed" 3 CDefault)])].

(** common.py:182 VEHICLE_FEATURES. *)
Definition is_vehicle_feature (f : Z) : bool := (0 <=? f) && (f <=? 3).

Definition table {A} (t : list (Z * list (Z * A))) (f : Z) : list (Z * A) :=
  match dict_get Z.eqb t f with Some l => l | None => [] end.

(** 656-674 _make_callback_class and 493: the descriptors of a manager
    class by attribute name. *)
Fixpoint find_name {A} (nm : A -> string) (n : string) (l : list (Z * A)) : option (Z * A) :=
  match l with
  | [] => None
  | (k, d) :: r => match find_name nm n r with
                   | Some x => Some x
                   | None => if String.eqb (nm d) n then Some (k, d) else None
                   end
  end.
Definition descriptor (f : Z) (n : string) : option (Z * cbclass) :=
  match find_name cd_name n (table CALLBACKS f) with
  | Some (k, d) => Some (k, cd_class d)
  | None => if String.eqb n "graphics" then Some (0, CGraphics) else None
  end.
(** 646-653 _make_property_class. *)
Definition prop_descriptor (f : Z) (n : string) : option (Z * cbclass) :=
  match find_name fst n (table PROPERTIES f) with
  | Some (k, d) => Some (k, snd d)
  | None => None
  end.

(** What can be assigned to an attribute: a plain value or a new callback
    object. *)
Inductive arg := ARaw (v : option vobj) | AObj (c : cbobj).

(** 474-480 CallbackDescriptor.__set__. *)
Definition descr_set (d : Z * cbclass) (a : arg) (cbs : list (Z * cbobj)) : option (list (Z * cbobj)) :=
  match a with
  | ARaw v => Some (dict_set Z.eqb cbs (fst d) (cls_new (snd d) v))
  | AObj c => if cbclass_eqb (c_class c) (snd d) then Some (dict_set Z.eqb cbs (fst d) c) else None
  end.
(** 482-487 CallbackDescriptor.__get__. *)
Definition descr_get (d : Z * cbclass) (cbs : list (Z * cbobj)) : cbobj * list (Z * cbobj) :=
  match dict_get Z.eqb cbs (fst d) with
  | Some c => (c, cbs)
  | None => let c := cls_new (snd d) None in (c, dict_set Z.eqb cbs (fst d) c)
  end.

Record manager := mk_manager { m_callbacks : list (Z * cbobj); m_props : list (Z * cbobj) }.

(** One statement of the user's program on a manager [cb]: an assignment
    cb.n = a or cb.properties.n = a, or to a field of what such an attribute
    reads as, cb.n.default = v, cb.n.purchase = v.  Simplification: one
    callback object assigned to two attributes and changed afterwards is not
    modelled. *)
Inductive event :=
| EAssign (n : string) (a : arg)
| EField (n : string) (purchase : bool) (v : option vobj)
| EPropAssign (n : string) (a : arg)
| EPropField (n : string) (purchase : bool) (v : option vobj).

Definition set_field (purchase : bool) (v : option vobj) (c : cbobj) : cbobj :=
  if purchase then mk_cb (c_class c) (c_default c) v else mk_cb (c_class c) v (c_purchase c).

(** The manager classes have slots, so unknown names raise; the Properties
    classes have none, so assigning an unknown name just adds an attribute
    nobody reads.  Only vehicles have properties. *)
Definition apply_event (f : Z) (m : manager) (e : event) : option manager :=
  match e with
  | EAssign n a =>
    do d <- descriptor f n;
    do cbs <- descr_set d a (m_callbacks m); Some (mk_manager cbs (m_props m))
  | EField n p v =>
    do d <- descriptor f n;
    let '(c, cbs) := descr_get d (m_callbacks m) in
    Some (mk_manager (dict_set Z.eqb cbs (fst d) (set_field p v c)) (m_props m))
  | EPropAssign n a =>
    if negb (is_vehicle_feature f) then None else
    match prop_descriptor f n with
    | None => Some m
    | Some d => do ps <- descr_set d a (m_props m); Some (mk_manager (m_callbacks m) ps)
    end
  | EPropField n p v =>
    if negb (is_vehicle_feature f) then None else
    do d <- prop_descriptor f n;
    let '(c, ps) := descr_get d (m_props m) in
    Some (mk_manager (m_callbacks m) (dict_set Z.eqb ps (fst d) (set_field p v c)))
  end.
Fixpoint apply_events (f : Z) (m : manager) (l : list event) : option manager :=
  match l with
  | [] => Some m
  | e :: r => do m <- apply_event f m e; apply_events f m r
  end.

(** 552-562 CallbackManager.__init__(callbacks) with [graphics] and
    [properties] already taken out of the dictionary; 677-683
    make_callback_manager. *)
Definition make_manager (f : Z) (graphics : arg) (props cbs : list (string * arg)) : option manager :=
  do m <- apply_event f (mk_manager [] []) (EAssign "graphics" graphics);
  do m <- apply_events f m (map (fun na => EPropAssign (fst na) (snd na)) props);
  apply_events f m (map (fun na => EAssign (fst na) (snd na)) cbs).

(** What a built switch or map leads to; [TZero] is the integer 0. *)
Inductive target :=
| TUser (v : vobj)
| TZero
| TSwitch (code : string) (ranges : list (Z * target)) (default : target).

(** 506-526: the loop of Properties.make_switches. *)
Fixpoint prop_ranges (l : list (Z * cbobj)) (dr pr : list (Z * target)) (same : bool)
  : option (list (Z * target) * list (Z * target) * bool) :=
  match l with
  | [] => Some (dr, pr, same)
  | (k, c) :: r =>
    if negb (is_set c) then prop_ranges r dr pr same else
    match c_class c with
    | CDual =>
      let dr := match c_default c with Some v => dict_set Z.eqb dr k (TUser v) | None => dr end in
      let pr := match c_purchase c with Some v => dict_set Z.eqb pr k (TUser v) | None => pr end in
      let same := match c_default c, c_purchase c with
                  | Some d, Some p => if opt_eqb (v_ref d) (v_ref p) then same else false
                  | _, _ => false
                  end in
      prop_ranges r dr pr same
    | CPurchase => match c_purchase c with
                   | Some v => prop_ranges r dr (dict_set Z.eqb pr k (TUser v)) same
                   | None => None (* not reached: is_set *)
                   end
    | CDefault => match c_default c with
                  | Some v => prop_ranges r (dict_set Z.eqb dr k (TUser v)) pr same
                  | None => None (* not reached: is_set *)
                  end
    | CGraphics => None
    end
  end.
Definition dict_update {A} (d e : list (Z * A)) : list (Z * A) :=
  fold_left (fun d kv => dict_set Z.eqb d (fst kv) (snd kv)) e d.

(** 506-550 Properties.make_switches. *)
Definition make_switches (props : list (Z * cbobj)) (default : target) : option (option target * option target) :=
  do (dr, pr, same) <- prop_ranges props [] [] true;
  let sw r := TSwitch "extra_callback_info1_byte" r default in
  if (same : bool) then
    let s := sw (dict_update dr pr) in Some (Some s, Some s)
  else
    Some (match dr with [] => None | _ => Some (sw dr) end,
          match pr with [] => None | _ => Some (sw pr) end).

(** 579-581. *)
Definition has_graphics (f : Z) : bool := is_vehicle_feature f || existsb (Z.eqb f) [4; 15; 7; 9; 20].
Definition has_purchase (f : Z) : bool := is_vehicle_feature f || existsb (Z.eqb f) [4; 15; 20].

(** 596-604: the loop over the callbacks. *)
Fixpoint collect (l : list (Z * cbobj)) (dc pc : list (Z * target)) : list (Z * target) * list (Z * target) :=
  match l with
  | [] => (dc, pc)
  | (k, c) :: r =>
    if k =? 0 then collect r dc pc else
    let dc := match c_default c with Some v => dict_set Z.eqb dc k (TUser v) | None => dc end in
    let pc := match c_purchase c with Some v => dict_set Z.eqb pc k (TUser v) | None => pc end in
    collect r dc pc
  end.

(** 19: Callback.Vehicle.CHANGE_PROPERTIES. *)
Definition CHANGE_PROPERTIES : Z := 54.
Definition or_zero (o : option vobj) : target := match o with Some v => TUser v | None => TZero end.

(** 579-632 CallbackManager.make_switch: the default and the maps. *)
Definition make_switch (f : Z) (m : manager) : option (option target * list (Z * target)) :=
  let '(g, cbs) := descr_get (0, CGraphics) (m_callbacks m) in
  do! (is_some (c_default g) || negb (has_graphics f));
  do (dc, pc, cbs) <-
    (if is_vehicle_feature f && existsb (fun kc => is_set (snd kc)) (m_props m) then
       do d <- descriptor f "change_properties";
       let '(ch, cbs) := descr_get d cbs in
       do! (negb (is_set ch));
       do (ds, ps) <- make_switches (m_props m) (or_zero (c_default g));
       Some (match ds with Some t => [(CHANGE_PROPERTIES, t)] | None => [] end,
             match ps with Some t => [(CHANGE_PROPERTIES, t)] | None => [] end, cbs)
     else Some ([], [], cbs));
  let '(dc, pc) := collect cbs dc pc in
  let default := if has_graphics f then option_map TUser (c_default g) else None in
  let maps :=
    if has_purchase f then
      match pc, c_purchase g with
      | _ :: _, gp => [(255, TSwitch "current_callback" pc
                              (or_zero (match gp with None => c_default g | Some _ => gp end)))]
      | [], Some gp => if has_graphics f then [(255, TUser gp)] else []
      | [], None => []
      end
    else [] in
  let default := match dc with
                 | _ :: _ => Some (TSwitch "current_callback" dc (or_zero (c_default g)))
                 | [] => default
                 end in
  Some (default, maps).

(** 569-577 CallbackManager.set_flag_props on the dictionary of integer
    properties. *)
Fixpoint flag_sum (f : Z) (l : list (Z * cbobj)) (res : Z) : option Z :=
  match l with
  | [] => Some res
  | (k, c) :: r =>
    if negb (k =? 0) && is_set c then
      do d <- dict_get Z.eqb (table CALLBACKS f) k; flag_sum f r (Z.lor res (cd_flag d))
    else flag_sum f r res
  end.
Definition get_or_0 (props : list (string * Z)) (n : string) : Z :=
  match dict_get String.eqb props n with Some v => v | None => 0 end.
Definition set_flag_props (f : Z) (m : manager) (props : list (string * Z)) : option (list (string * Z)) :=
  do res <- flag_sum f (m_callbacks m) 0;
  let props := if 0 <? Z.land res 255
               then dict_set String.eqb props "cb_flags" (Z.lor (get_or_0 props "cb_flags") (Z.land res 255))
               else props in
  let props := if 0 <? Z.land res 65280
               then dict_set String.eqb props "extra_cb_flags" (Z.lor (get_or_0 props "extra_cb_flags") (Z.shiftr res 8))
               else props in
  Some props.
