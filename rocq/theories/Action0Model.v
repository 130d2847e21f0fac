(** Model of the Action 0 tables (grf/actions.py:330-1264), of DefineMultiple
    and Define (1359-1435, 1461-1466) and of decode_action0
    (grf/decompile.py:213-249).  Definitions only.  The tables are transcribed
    mechanically. *)
From Coq Require Import ZArith List Bool String.
From Verif Require Import Base RecordsModel PropModel.
Import ListNotations.
Open Scope string_scope.
Open Scope Z_scope.

(** grf/actions.py:340-380 with ACTION0_COMMON_VEHICLE_PROPS 330-337 *)
Definition ACTION0_TRAIN_PROPS : list (Z * (string * fmt)) :=
  [(0, ("introduction_days_since_1920", FW)); (2, ("reliability_decay", FB)); (3, ("vehicle_life", FB)); (4, ("model_life", FB));
   (6, ("climates_available", PClimate)); (7, ("loading_speed", FB)); (5, ("track_type", FB)); (8, ("ai_special_flag", FB));
   (9, ("max_speed", FW)); (11, ("power", FW)); (13, ("running_cost_factor", FB)); (14, ("running_cost_base", FD));
   (18, ("sprite_id", FB)); (19, ("dual_headed", FB)); (20, ("cargo_capacity", FB)); (21, ("default_cargo_type", FB));
   (22, ("weight_low", FB)); (23, ("cost_factor", FB)); (24, ("ai_engine_rank", FB)); (25, ("engine_class", FB));
   (26, ("sort_purchase_list", (PId true))); (27, ("extra_power_per_wagon", FW)); (28, ("refit_cost", FB));
   (29, ("refittable_cargo_types", FD)); (30, ("cb_flags", FB)); (31, ("tractive_effort_coefficient", FB));
   (32, ("air_drag_coefficient", FB)); (33, ("shorten_by", FB)); (34, ("visual_effect_and_powered", FB));
   (35, ("extra_weight_per_wagon", FB)); (36, ("weight_high", FB)); (37, ("bitmask_vehicle_info", FB));
   (38, ("retire_early", FbS)); (39, ("misc_flags", FB)); (40, ("refittable_cargo_classes", FW));
   (41, ("non_refittable_cargo_classes", FW)); (42, ("introduction_date", PDate)); (43, ("cargo_age_period", FW));
   (44, ("cargo_allow_refit", PByteList)); (45, ("cargo_disallow_refit", PByteList)); (46, ("curve_speed_mod", FW));
   (47, ("variant_group", (PId false))); (48, ("extra_flags", FD)); (49, ("extra_cb_flags", FB))].
(** grf/actions.py:382-415 with ACTION0_COMMON_VEHICLE_PROPS 330-337 *)
Definition ACTION0_RV_PROPS : list (Z * (string * fmt)) :=
  [(0, ("introduction_days_since_1920", FW)); (2, ("reliability_decay", FB)); (3, ("vehicle_life", FB)); (4, ("model_life", FB));
   (6, ("climates_available", PClimate)); (7, ("loading_speed", FB)); (5, ("road_type", FB)); (8, ("precise_max_speed", FB));
   (9, ("running_cost_factor", FB)); (10, ("running_cost_base", FD)); (14, ("sprite_id", FB)); (15, ("cargo_capacity", FB));
   (16, ("default_cargo_type", FB)); (17, ("cost_factor", FB)); (18, ("sound_effect", FB)); (19, ("power", FB));
   (20, ("weight", FB)); (21, ("max_speed", FB)); (22, ("refittable_cargo_types", FD)); (23, ("cb_flags", FB));
   (24, ("tractive_effort_coefficient", FB)); (25, ("air_drag_coefficient", FB)); (26, ("refit_cost", FB));
   (27, ("retire_early", FbS)); (28, ("misc_flags", FB)); (29, ("refittable_cargo_classes", FW));
   (30, ("non_refittable_cargo_classes", FW)); (31, ("introduction_date", PDate)); (32, ("sort_purchase_list", (PId true)));
   (33, ("visual_effect", FB)); (34, ("cargo_age_period", FW)); (35, ("shorten_by", FB)); (36, ("cargo_allow_refit", PByteList));
   (37, ("cargo_disallow_refit", PByteList)); (38, ("variant_group", (PId false))); (39, ("extra_flags", FD));
   (40, ("extra_cb_flags", FB))].
(** grf/actions.py:417-445 with ACTION0_COMMON_VEHICLE_PROPS 330-337 *)
Definition ACTION0_SHIP_PROPS : list (Z * (string * fmt)) :=
  [(0, ("introduction_days_since_1920", FW)); (2, ("reliability_decay", FB)); (3, ("vehicle_life", FB)); (4, ("model_life", FB));
   (6, ("climates_available", PClimate)); (7, ("loading_speed", FB)); (8, ("sprite_id", FB)); (9, ("is_refittable", FB));
   (10, ("cost_factor", FB)); (11, ("max_speed", FB)); (12, ("default_cargo_type", FB)); (13, ("cargo_capacity", FW));
   (15, ("running_cost_factor", FB)); (16, ("sound_effect", FB)); (17, ("refittable_cargo_types", FD)); (18, ("cb_flags", FB));
   (19, ("refit_cost", FB)); (20, ("ocean_speed_fraction", FB)); (21, ("canal_speed_fraction", FB)); (22, ("retire_early", FbS));
   (23, ("misc_flags", FB)); (24, ("refittable_cargo_classes", FW)); (25, ("non_refittable_cargo_classes", FW));
   (26, ("introduction_date", PDate)); (27, ("sort_purchase_list", (PId true))); (28, ("visual_effect", FB));
   (29, ("cargo_age_period", FW)); (30, ("cargo_allow_refit", PByteList)); (31, ("cargo_disallow_refit", PByteList));
   (32, ("variant_group", (PId false))); (33, ("extra_flags", FD)); (34, ("extra_cb_flags", FB))].
(** grf/actions.py:447-475 with ACTION0_COMMON_VEHICLE_PROPS 330-337 *)
Definition ACTION0_AIRCRAFT_PROPS : list (Z * (string * fmt)) :=
  [(0, ("introduction_days_since_1920", FW)); (2, ("reliability_decay", FB)); (3, ("vehicle_life", FB)); (4, ("model_life", FB));
   (6, ("climates_available", PClimate)); (7, ("loading_speed", FB)); (8, ("sprite_id", FB)); (9, ("is_helicopter", FB));
   (10, ("is_large", FB)); (11, ("cost_factor", FB)); (12, ("max_speed", FB)); (13, ("acceleration", FB));
   (14, ("running_cost_factor", FB)); (15, ("passenger_capacity", FW)); (17, ("mail_capacity", FB)); (18, ("sound_effect", FB));
   (19, ("refittable_cargo_types", FD)); (20, ("cb_flags", FB)); (21, ("refit_cost", FB)); (22, ("retire_early", FbS));
   (23, ("misc_flags", FB)); (24, ("refittable_cargo_classes", FW)); (25, ("non_refittable_cargo_classes", FW));
   (26, ("introduction_date", PDate)); (27, ("sort_purchase_list", (PId true))); (28, ("cargo_age_period", FW));
   (29, ("cargo_allow_refit", PByteList)); (30, ("cargo_disallow_refit", PByteList)); (31, ("range", FW));
   (32, ("variant_group", (PId false))); (33, ("extra_flags", FD)); (34, ("extra_cb_flags", FB))].
(** grf/actions.py:717-740 *)
Definition ACTION0_STATION_PROPS : list (Z * (string * fmt)) :=
  [(8, ("class_label", FL)); (9, ("layout", POldStation)); (10, ("copy_layout", FB)); (11, ("cb_flags", FB));
   (12, ("disabled_platforms", FB)); (13, ("disabled_length", FB)); (14, ("custom_layout", FV));
   (15, ("copy_custom_layout", FB)); (16, ("cargo_threshold", FW)); (17, ("draw_pylon_tiles", FB));
   (18, ("cargo_random_triggers", FD)); (19, ("general_flags", FB)); (20, ("hide_wire_tiles", FB));
   (21, ("non_traversable_tiles", FB)); (22, ("animation_info", FW)); (23, ("animation_speed", FB));
   (24, ("animation_triggers", FW)); (25, ("road_routing", FV)); (26, ("advanced_layout", PNewStation));
   (27, ("min_bridge_height", F8B)); (28, ("station_name", FW)); (29, ("station_class_name", FW))].
(** grf/actions.py:782-796 *)
Definition ACTION0_BRIDGE_PROPS : list (Z * (string * fmt)) :=
  [(0, ("fallback_type", FB)); (8, ("intro_year_since_1920", FB)); (9, ("min_length", FB)); (10, ("max_length", FB));
   (11, ("cost_factor_byte", FB)); (12, ("max_speed", FW)); (13, ("layout", PBridge)); (14, ("flags", FB));
   (15, ("intro_year", FD)); (16, ("purchase_text", FW)); (17, ("description_rail", FW)); (18, ("description_road", FW));
   (19, ("cost_factor", FW))].
(** grf/actions.py:823-852 *)
Definition ACTION0_HOUSE_PROPS : list (Z * (string * fmt)) :=
  [(8, ("substitute", FB)); (9, ("flags", FB)); (10, ("availability_years", FW)); (11, ("population", FB));
   (12, ("mail_mult", FB)); (13, ("passengers_acceptance", FB)); (14, ("mail_acceptance", FB)); (15, ("goods_acceptance", FB));
   (16, ("authority_impact", FW)); (17, ("removal_cost_mult", FB)); (18, ("name", FW)); (19, ("availability_mask", FW));
   (20, ("cb_flags1", FB)); (21, ("override", FB)); (22, ("refresh_multiplier", FB)); (23, ("random_colours", F4B));
   (24, ("probability", FB)); (25, ("extra_flags", FB)); (26, ("animation_frames", FB)); (27, ("animation_speed", FB));
   (28, ("building_class", FB)); (29, ("cb_flags2", FB)); (30, ("accepted_cargo", FD)); (31, ("min_life", FB));
   (32, ("watched_cargo_types", FW)); (33, ("min_year", FW)); (34, ("max_year", FW)); (35, ("tile_acceptance", PTileAcceptance))].
(** grf/actions.py:892-908 *)
Definition ACTION0_GLOBAL_PROPS : list (Z * (string * fmt)) :=
  [(8, ("basecost", FB)); (9, ("cargo_table", FL)); (10, ("currency_name", FW)); (11, ("currency_mult", FD));
   (12, ("currency_options", FW)); (13, ("currency_symbols", F0E)); (15, ("currency_euro_date", FW));
   (16, ("snowline_table", F12x32B)); (17, ("grfid_overrides", F2L)); (18, ("railtype_table", FL));
   (19, ("lang_genders", PMultiDict)); (20, ("lang_cases", PMultiDict)); (21, ("lang_plural", FB));
   (22, ("roadtype_table1", FB)); (23, ("roadtype_table2", FD))].
(** grf/actions.py:910-923 *)
Definition ACTION0_INDUSTRY_TILE_PROPS : list (Z * (string * fmt)) :=
  [(8, ("substitute_type", FB)); (9, ("override_type", FB)); (10, ("tile_acceptance_1", FW)); (11, ("tile_acceptance_2", FW));
   (12, ("tile_acceptance_3", FW)); (13, ("land_shape_flags", FB)); (14, ("cb_flags", FB)); (15, ("anim_info", FW));
   (16, ("anim_speed", FB)); (17, ("cb25_triggers", FB)); (18, ("flags", FB)); (19, ("tile_acceptance_list", PTileAcceptance))].
(** grf/actions.py:1057-1091 *)
Definition ACTION0_INDUSTRY_PROPS : list (Z * (string * fmt)) :=
  [(8, ("substitute_type", FB)); (9, ("override_type", FB)); (10, ("layouts", PIndustryLayouts)); (11, ("production_flags", FB));
   (12, ("closure_message", FW)); (13, ("production_increase_message", FW)); (14, ("production_decrease_message", FW));
   (15, ("fund_cost", FB)); (16, ("production_cargo", FW)); (17, ("acceptance_cargo", FD)); (18, ("produciton_multipliers", FB));
   (19, ("acceptance_multipliers", FB)); (20, ("minimal_distributed", FB)); (21, ("random_sound", FnB));
   (22, ("conflicting_indtypes", F3B)); (23, ("mapgen_probability", FB)); (24, ("ingame_probability", FB));
   (25, ("map_colour", FB)); (26, ("special_flags", FD)); (27, ("text_id", FW)); (28, ("input_mult1", FD));
   (29, ("input_mult2", FD)); (30, ("input_mult3", FD)); (31, ("name", FW)); (32, ("prospecting_chance", FD));
   (33, ("cb_flags", FB)); (34, ("extra_cb_flags", FB)); (35, ("destruction_cost", FD)); (36, ("station_text", FW));
   (37, ("production_types", FnB)); (38, ("acceptance_types", FnB)); (39, ("produciton_multipliers", FnB));
   (40, ("input_multipliers", FnmW))].
(** grf/actions.py:1104-1127 *)
Definition ACTION0_CARGO_PROPS : list (Z * (string * fmt)) :=
  [(8, ("bit_number", FB)); (9, ("type_name", FW)); (10, ("unit_name", FW)); (11, ("one_text", FW)); (12, ("many_text", FW));
   (13, ("type_abbreviation", FW)); (14, ("icon_sprite", FW)); (15, ("weight", FB)); (16, ("penalty_lowerbound", FB));
   (17, ("single_penalty_length", FB)); (18, ("base_price", FD)); (19, ("station_list_colour", FB));
   (20, ("cargo_payment_list_colour", FB)); (21, ("is_freight", FB)); (22, ("cargo_classes", FW)); (23, ("label", FL));
   (24, ("town_growth_effect", FB)); (25, ("town_growth_multiplier", FW)); (26, ("cb_flags", FB)); (27, ("units_of_cargo", FW));
   (28, ("items_of_cargo", FW)); (29, ("capacity_multiplier", FW))].
(** grf/actions.py:1129-1133 *)
Definition ACTION0_SOUND_EFFECT_PROPS : list (Z * (string * fmt)) :=
  [(8, ("relative_volume", FB)); (9, ("priority", FB)); (10, ("override", FB))].
(** grf/actions.py:1155-1173 *)
Definition ACTION0_OBJECT_PROPS : list (Z * (string * fmt)) :=
  [(8, ("class_label", FL)); (9, ("class_name_id", FW)); (10, ("name_id", FW)); (11, ("climates_available", PClimate));
   (12, ("size", PSizeTuple)); (13, ("build_cost_multiplier", FB)); (14, ("introduction_date", PDate));
   (15, ("end_of_life_date", PDate)); (16, ("flags", FW)); (17, ("animation_info", FW)); (18, ("animation_speed", FB));
   (19, ("animation_triggers", FW)); (20, ("remove_cost_multiplier", FB)); (21, ("cb_flags", FW)); (22, ("height", FB));
   (23, ("num_views", FB)); (24, ("count_per_map256", FB))].
(** grf/actions.py:1175-1201 *)
Definition ACTION0_RAILTYPE_PROPS : list (Z * (string * fmt)) :=
  [(8, ("label", FL)); (9, ("toolbar_caption", FW)); (10, ("menu_text", FW)); (11, ("build_window_caption", FW));
   (12, ("autoreplace_text", FW)); (13, ("new_engine_text", FW)); (19, ("construction_cost", FW)); (22, ("map_colour", FB));
   (23, ("introduction_date", PDate)); (26, ("sort_order", FB)); (27, ("name", FW)); (28, ("maintenance_cost", FW));
   (14, ("compatible_railtype_list", FnL)); (15, ("powered_railtype_list", FnL)); (16, ("railtype_flags", FB));
   (17, ("curve_speed_multiplier", FB)); (18, ("station_graphics", FB)); (20, ("speed_limit", FW));
   (21, ("acceleration_model", FB)); (24, ("requires_railtype_list", FnL)); (25, ("introduces_railtype_list", FnL));
   (29, ("alternative_railtype_list", FnL))].
(** grf/actions.py:1203-1222 *)
Definition ACTION0_ROADTYPE_PROPS : list (Z * (string * fmt)) :=
  [(8, ("label", FL)); (9, ("toolbar_caption", FW)); (10, ("menu_text", FW)); (11, ("build_window_caption", FW));
   (12, ("autoreplace_text", FW)); (13, ("new_engine_text", FW)); (15, ("powered_roadtype_list", FnL));
   (16, ("roadtype_flags", FB)); (19, ("construction_cost", FW)); (20, ("speed_limit", FW)); (22, ("map_colour", FB));
   (23, ("introduction_date", PDate)); (24, ("requires_roadtype_list", FnL)); (25, ("introduces_roadtype_list", FnL));
   (26, ("sort_order", FB)); (27, ("name", FW)); (28, ("maintenance_cost", FW)); (29, ("alternative_roadtype_list", FnL))].
(** grf/actions.py:1224-1237 *)
Definition ACTION0_ROAD_STOP_PROPS : list (Z * (string * fmt)) :=
  [(8, ("class_label", FL)); (9, ("availability_type", FB)); (10, ("name_id", FW)); (11, ("class_name_id", FW));
   (12, ("draw_mode", FB)); (13, ("cargo_random_triggers", FD)); (14, ("animation_info", FW)); (15, ("animation_speed", FB));
   (16, ("animation_triggers", FB)); (17, ("cb_flags", FB)); (18, ("general_flags", FD)); (21, ("cost_multipliers", FW))].
(** 1241-1264 ACTION0_PROPS *)
Definition ACTION0_PROPS : list (Z * list (Z * (string * fmt))) :=
  [(0, ACTION0_TRAIN_PROPS); (1, ACTION0_RV_PROPS); (2, ACTION0_SHIP_PROPS); (3, ACTION0_AIRCRAFT_PROPS); (4, ACTION0_STATION_PROPS); (6, ACTION0_BRIDGE_PROPS); (7, ACTION0_HOUSE_PROPS); (8, ACTION0_GLOBAL_PROPS); (9, ACTION0_INDUSTRY_TILE_PROPS); (10, ACTION0_INDUSTRY_PROPS); (11, ACTION0_CARGO_PROPS); (12, ACTION0_SOUND_EFFECT_PROPS); (15, ACTION0_OBJECT_PROPS); (16, ACTION0_RAILTYPE_PROPS); (18, ACTION0_ROADTYPE_PROPS); (19, ACTION0_ROADTYPE_PROPS); (20, ACTION0_ROAD_STOP_PROPS)].
(** 1266-1269 ACTION0_PROP_DICT: by name; when a table has two properties of
    one name the later one wins. *)
Definition prop_dict (t : list (Z * (string * fmt))) : list (string * (Z * fmt)) :=
  fold_left (fun d e => dict_set String.eqb d (fst (snd e)) (fst e, snd (snd e))) t [].
Definition by_name (feature : Z) (name : string) : option (Z * fmt) :=
  do t <- dict_get Z.eqb ACTION0_PROPS feature; dict_get String.eqb (prop_dict t) name.

(** 1359-1376 DefineMultiple; [Define] (1461-1466) has count 1 and one-element
    lists. *)
Record define := mkDef { df_feature : Z; df_first : Z; df_count : Z; df_props : list (string * list pv) }.
Definition define_init (a : define) : option define :=
  do t <- dict_get Z.eqb ACTION0_PROPS (df_feature a);
  do! (forallb (fun p => match dict_get String.eqb (prop_dict t) (fst p) with Some _ => true | None => false end) (df_props a));
  Some a.
(** 1428-1434: value[0] .. value[count - 1] *)
Fixpoint encode_values (n : nat) (f : fmt) (vs : list pv) : option bytes :=
  match n with
  | O => Some []%list
  | S n => match vs with v :: vs => do b <- encode_value f v; do c <- encode_values n f vs; Some (b ++ c)%list | []%list => None end
  end.
Definition encode_prop (feature count : Z) (p : string * list pv) : option bytes :=
  do e <- by_name feature (fst p);
  let (code, f) := e in
  do h <- mk_bytes [code]; do b <- encode_values (Z.to_nat count) f (snd p);
  Some (h ++ b)%list.
(** 1423-1435 get_data *)
Definition define_data (a : define) : option bytes :=
  do h <- concat_opt [pack_B 0; pack_B (df_feature a); pack_B (len (df_props a)); pack_B (df_count a); pack_B 255; pack_H (df_first a)];
  do b <- concat_opt (map (encode_prop (df_feature a) (df_count a)) (df_props a));
  Some (h ++ b)%list.

(** decompile.py:213-249 decode_action0 *)
Fixpoint read_props (n : nat) (t : list (Z * (string * fmt))) (count : Z) (props : list (string * list pv)) (d : bytes)
  : option (list (string * list pv)) :=
  match n with
  | O => Some props
  | S n =>
      do (code, d) <- rd_B d;
      do e <- dict_get Z.eqb t code;
      let (name, f) := e in
      do (vs, d) <- rd_n (read_value f) (Z.to_nat count) d;
      read_props n t count (dict_set String.eqb props name vs) d
  end.
Definition decode_action0 (d : bytes) : option define :=
  do (f, d) <- rd_B d; do f <- feature_of f;
  do (num_props, d) <- rd_B d; do (count, d) <- rd_B d;
  do (first, d) <- rd_ext d;
  do t <- (if num_props =? 0 then Some []%list else dict_get Z.eqb ACTION0_PROPS f);
  do props <- read_props (Z.to_nat num_props) t count []%list d;
  define_init (mkDef f first count props).
