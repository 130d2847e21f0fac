(** The variable tables of grf/va2vars.py, transcribed by a script (the
    'value_function', 'param_function' and other keys are not read by
    grf/parser.py and are left out).  Definitions only. *)
From Coq Require Import ZArith List Bool String Ascii.
From Verif Require Import Base CommonModel RecordsModel Action14Model VA2Model VA2DecodeModel.
Import ListNotations.
Open Scope Z_scope.

Definition nm (s : string) : name := map (fun c => Z.of_nat (nat_of_ascii c)) (list_ascii_of_string s).
Definition vtable := list (name * vdata).
Definition v (x : string) (var start size : Z) : name * vdata := (nm x, mkVD var start size None).
Definition vp (x : string) (var start size param : Z) : name * vdata := (nm x, mkVD var start size (Some param)).

(** {**a, **b} *)
Definition vmerge (a b : vtable) : vtable := fold_left (fun d kv => dict_set bytes_eqb d (fst kv) (snd kv)) b a.

(** va2vars.py:5-25 *)
Definition NML_VA2_GLOBALVARS : vtable := [
  v "current_month" 2 0 8;
  v "current_day_of_month" 2 8 5;
  v "is_leapyear" 2 15 1;
  v "current_day_of_year" 2 16 9;
  v "traffic_side" 6 4 1;
  v "animation_counter" 10 0 16;
  v "current_callback_byte" 12 0 8;
  v "current_callback" 12 0 16;
  v "extra_callback_info1" 16 0 32;
  v "extra_callback_info1_byte" 16 0 8;
  v "extra_callback_info1_byte_2" 16 8 8;
  v "game_mode" 18 0 8;
  v "extra_callback_info2" 24 0 32;
  v "display_options" 27 0 6;
  v "last_computed_result" 28 0 32;
  v "snowline_height" 32 0 8;
  v "difficulty_level" 34 0 8;
  v "current_date" 35 0 32;
  v "current_year" 36 0 32].

(** va2vars.py:33-90 *)
Definition NML_VA2_VEHICLES : vtable := [
  v "grfid" 37 0 32;
  v "position_in_consist" 64 0 8;
  v "position_in_consist_from_end" 64 8 8;
  v "num_vehs_in_consist" 64 16 8;
  v "position_in_vehid_chain" 65 0 8;
  v "position_in_vehid_chain_from_end" 65 8 8;
  v "num_vehs_in_vehid_chain" 65 16 8;
  v "cargo_classes_in_consist" 66 0 8;
  v "most_common_cargo_type" 66 8 8;
  v "most_common_cargo_subtype" 66 16 8;
  v "bitmask_consist_info" 66 24 8;
  v "company_num" 67 0 8;
  v "company_type" 67 16 2;
  v "company_colour1" 67 24 4;
  v "company_colour2" 67 28 4;
  v "aircraft_height" 68 8 8;
  v "airport_type" 68 0 8;
  v "curv_info_prev_cur" 69 0 4;
  v "curv_info_cur_next" 69 8 4;
  v "curv_info_prev_next" 69 16 4;
  v "curv_info" 69 0 12;
  v "motion_counter" 70 8 24;
  v "cargo_type_in_veh" 71 0 8;
  v "cargo_unit_weight" 71 8 8;
  v "cargo_classes" 71 16 16;
  v "vehicle_is_available" 72 0 1;
  v "vehicle_is_testing" 72 1 1;
  v "vehicle_is_offered" 72 2 1;
  v "build_year" 73 0 32;
  v "vehicle_is_potentially_powered" 74 8 1;
  v "tile_has_catenary" 74 9 1;
  v "date_of_last_service" 75 0 32;
  v "position_in_articulated_veh" 77 0 8;
  v "position_in_articulated_veh_from_end" 77 8 8;
  v "waiting_triggers" 95 0 8;
  v "random_bits" 95 8 8;
  v "direction" 159 0 8;
  v "vehicle_is_hidden" 178 0 1;
  v "vehicle_is_stopped" 178 1 1;
  v "vehicle_is_crashed" 178 7 1;
  v "cargo_capacity" 186 0 16;
  v "cargo_count" 188 0 16;
  v "age_in_days" 192 0 16;
  v "max_age_in_days" 194 0 16;
  v "vehicle_type_id" 198 0 16;
  v "vehicle_is_flipped" 200 1 1;
  v "breakdowns_since_last_service" 202 0 8;
  v "vehicle_is_broken" 203 0 8;
  v "reliability" 206 0 16;
  v "cargo_subtype" 242 0 8;
  v "vehicle_is_unloading" 254 1 1;
  v "vehicle_is_powered" 254 5 1;
  v "vehicle_is_not_powered" 254 6 1;
  v "vehicle_is_reversed" 254 8 1;
  v "built_during_preview" 254 10 1].

(** va2vars.py:92-101 *)
Definition NML_VA2_TRAIN : vtable := vmerge NML_VA2_VEHICLES [
  v "max_speed" 152 0 16;
  v "current_speed" 180 0 16;
  v "current_railtype" 74 0 8;
  v "current_max_speed" 76 0 16;
  v "vehicle_is_in_depot" 226 7 1].

(** va2vars.py:103-113 *)
Definition NML_VA2_RV : vtable := vmerge NML_VA2_VEHICLES [
  v "max_speed" 152 0 16;
  v "current_speed" 180 0 16;
  v "current_roadtype" 74 0 8;
  v "current_tramtype" 74 0 8;
  v "current_max_speed" 76 0 16;
  v "vehicle_is_in_depot" 226 0 8].

(** va2vars.py:115-123 *)
Definition NML_VA2_SHIP : vtable := vmerge NML_VA2_VEHICLES [
  v "max_speed" 152 0 16;
  v "current_speed" 180 0 16;
  v "current_max_speed" 76 0 16;
  v "vehicle_is_in_depot" 226 7 1].

(** va2vars.py:125-134 *)
Definition NML_VA2_AIRCRAFT : vtable := vmerge NML_VA2_VEHICLES [
  v "max_speed" 152 0 16;
  v "current_speed" 180 0 16;
  v "current_max_speed" 76 0 16;
  v "vehicle_is_in_depot" 230 0 8].

(** va2vars.py:137-158 *)
Definition NML_VA2_BASE_STATIONS : vtable := [
  v "had_vehicle_of_type" 138 1 5;
  v "is_waypoint" 138 6 1;
  v "facilities" 240 0 8;
  v "airport_type" 241 0 8;
  v "build_date" 250 0 16;
  v "cargo_amount_waiting" 96 0 32;
  v "cargo_time_since_pickup" 97 0 32;
  v "cargo_rating" 98 0 32;
  v "cargo_time_en_route" 99 0 32;
  v "cargo_last_vehicle_speed" 100 0 8;
  v "cargo_last_vehicle_age" 100 8 8;
  v "cargo_accepted" 101 3 1;
  v "cargo_accepted_ever" 105 0 1;
  v "cargo_accepted_last_month" 105 1 1;
  v "cargo_accepted_this_month" 105 2 1;
  v "cargo_accepted_bigtick" 105 3 1].

(** va2vars.py:161-178 *)
Definition NML_VA2_STATIONS : vtable := vmerge NML_VA2_BASE_STATIONS [
  v "tile_type" 64 24 4;
  v "terrain_type" 66 0 8;
  v "track_type" 66 8 8;
  v "company_num" 67 0 8;
  v "company_type" 67 16 2;
  v "company_colour1" 67 24 4;
  v "company_colour2" 67 28 4;
  v "pbs_reserved" 68 0 1;
  v "pbs_reserved_or_disabled" 68 1 1;
  v "pbs_enabled" 68 2 1;
  v "rail_continuation" 69 0 8;
  v "rail_present" 69 8 8;
  v "animation_frame" 74 0 8].

(** va2vars.py:181-222 *)
Definition NML_VA2_OBJECTS : vtable := [
  v "relative_x" 64 0 8;
  v "relative_y" 64 8 8;
  v "relative_pos" 64 0 16;
  v "terrain_type" 65 0 3;
  v "tile_slope" 65 8 5;
  v "build_date" 66 0 32;
  v "animation_frame" 67 0 8;
  v "company_colour" 67 0 8;
  v "owner" 68 0 8;
  v "town_manhattan_dist" 69 0 16;
  v "town_zone" 69 16 8;
  v "town_euclidean_dist" 70 0 16;
  v "view" 72 0 8;
  v "random_bits" 95 8 8;
  vp "tile_height" 98 16 8 0;
  v "nearby_tile_object_type" 96 0 16;
  v "nearby_tile_object_view" 96 16 4;
  v "nearby_tile_random_bits" 97 0 8;
  v "nearby_tile_slope" 98 0 5;
  v "nearby_tile_is_same_object" 98 8 1;
  v "nearby_tile_is_water" 98 9 1;
  v "nearby_tile_terrain_type" 98 10 3;
  v "nearby_tile_water_class" 98 13 2;
  v "nearby_tile_height" 98 16 8;
  v "nearby_tile_class" 98 24 4;
  v "nearby_tile_animation_frame" 99 0 8;
  v "object_count" 100 16 8;
  v "object_distance" 100 0 16].

(** va2vars.py:224-245 *)
Definition NML_VA2_HOUSES : vtable := [
  v "construction_state" 64 0 2;
  v "pseudo_random_bits" 64 2 2;
  v "age" 65 0 8;
  v "town_zone" 66 0 8;
  v "terrain_type" 67 0 8;
  v "same_house_count_town" 68 0 8;
  v "same_house_count_map" 68 8 8;
  v "generating_town" 69 0 1;
  v "animation_frame" 70 0 8;
  v "x_coordinate" 71 0 16;
  v "y_coordinate" 71 16 16;
  v "random_bits" 95 8 8].

(** va2vars.py:247-265 *)
Definition NML_VA2_INDUSTRY_TILES : vtable := [
  v "construction_state" 64 0 2;
  v "terrain_type" 65 0 8;
  v "town_zone" 66 0 3;
  v "relative_x" 67 0 8;
  v "relative_y" 67 8 8;
  v "relative_pos" 67 0 16;
  v "animation_frame" 68 0 8;
  v "random_bits" 95 8 8;
  v "nearby_tile_slope" 96 0 5;
  v "nearby_tile_is_same_industry" 96 8 1;
  v "nearby_tile_is_water" 96 9 1;
  v "nearby_tile_terrain_type" 96 10 3;
  v "nearby_tile_water_class" 96 13 2;
  v "nearby_tile_height" 96 16 8;
  v "nearby_tile_class" 96 24 4;
  v "nearby_tile_animation_frame" 97 0 8;
  v "nearby_tile_industrytile_id" 98 0 16].

(** va2vars.py:267-299 *)
Definition NML_VA2_INDUSTRIES : vtable := [
  v "waiting_cargo_1" 64 0 16;
  v "waiting_cargo_2" 65 0 16;
  v "waiting_cargo_3" 66 0 16;
  v "water_distance" 67 0 32;
  v "layout_num" 68 0 8;
  v "founder_type" 69 16 2;
  v "founder_colour1" 69 24 4;
  v "founder_colour2" 69 28 4;
  v "build_date" 70 0 32;
  v "random_bits" 95 8 16;
  v "produced_cargo_waiting_1" 138 0 16;
  v "produced_cargo_waiting_2" 140 0 16;
  v "production_rate_1" 142 0 8;
  v "production_rate_2" 143 0 8;
  v "production_level" 147 0 8;
  v "produced_this_month_1" 148 0 16;
  v "produced_this_month_2" 150 0 16;
  v "transported_this_month_1" 152 0 16;
  v "transported_this_month_2" 154 0 16;
  v "transported_last_month_pct_1" 156 0 8;
  v "transported_last_month_pct_2" 157 0 8;
  v "produced_last_month_1" 158 0 16;
  v "produced_last_month_2" 160 0 16;
  v "transported_last_month_1" 162 0 16;
  v "transported_last_month_2" 164 0 16;
  v "founder" 167 0 8;
  v "colour" 168 0 8;
  v "counter" 170 0 16;
  v "build_type" 179 0 2;
  v "last_accept_date" 180 0 16].

(** va2vars.py:301-308 *)
Definition NML_VA2_RAILTYPES : vtable := [
  v "terrain_type" 64 0 8;
  v "enhanced_tunnels" 65 0 8;
  v "level_crossing_status" 66 0 8;
  v "build_date" 67 0 32;
  v "town_zone" 68 0 8;
  v "random_bits" 95 8 2].

(** va2vars.py:312-331 *)
Definition NML_VA2_ROAD_STOPS : vtable := vmerge NML_VA2_BASE_STATIONS [
  v "view" 64 0 8;
  v "stop_type" 65 0 8;
  v "terrain_type" 66 0 8;
  v "tile_slope" 66 8 5;
  v "road_type" 67 8 8;
  v "tram_type" 68 8 8;
  v "town_manhattan_dist" 69 0 16;
  v "town_zone" 69 16 8;
  v "town_euclidean_dist" 70 0 32;
  v "company_num" 71 0 8;
  v "company_type" 71 16 2;
  v "company_colour1" 71 24 4;
  v "company_colour2" 71 28 4;
  v "animation_frame" 73 0 8;
  v "drawn_in_gui" 80 4 1;
  v "waiting_triggers" 95 0 8;
  v "random_bits_tile" 95 24 8].

(** va2vars.py:335-350 *)
Definition VA2_VARS : list (Z * vtable) := map (fun fd => (fst fd, vmerge NML_VA2_GLOBALVARS (snd fd))) [
  (9, NML_VA2_INDUSTRY_TILES);
  (0, NML_VA2_TRAIN);
  (1, NML_VA2_RV);
  (2, NML_VA2_SHIP);
  (3, NML_VA2_AIRCRAFT);
  (4, NML_VA2_STATIONS);
  (7, NML_VA2_HOUSES);
  (10, NML_VA2_INDUSTRIES);
  (15, NML_VA2_OBJECTS);
  (16, NML_VA2_RAILTYPES);
  (20, NML_VA2_ROAD_STOPS)].

(** VA2_VARS[feature].get(name); None for a feature without a table (KeyError). *)
Definition va2_vars (f : Z) : option (name -> option vdata) :=
  do t <- dict_get Z.eqb VA2_VARS f; Some (dict_get bytes_eqb t).

(** va2vars.py:353-356: {(var, start, (1 << size) - 1): name}, later entries win. *)
Definition key3 := (Z * Z * Z)%type.
Definition key3_eqb (a b : key3) : bool :=
  let '(x, y, z) := a in let '(x', y', z') := b in (x =? x') && (y =? y') && (z =? z').
Definition inverse (t : vtable) : list (key3 * name) :=
  fold_left (fun d kv => let '(x, e) := kv in
    dict_set key3_eqb d (vd_var e, vd_start e, Z.shiftl 1 (vd_size e) - 1) x) t [].
Definition VA2_VARS_INV : list (Z * list (key3 * name)) := map (fun ft => (fst ft, inverse (snd ft))) VA2_VARS.
Definition va2_vars_inv (f : Z) : option inv_table :=
  do t <- dict_get Z.eqb VA2_VARS_INV f; Some (fun var start mask => dict_get key3_eqb t (var, start, mask)).
