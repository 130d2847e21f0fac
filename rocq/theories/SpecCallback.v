(** What a user expects of callback managers.  Independent of how the
    switches are built; only the record of what the user did, the built
    object and the names of things are shared with the model. *)
From Coq Require Import ZArith List Bool String.
From Verif Require Import Base RecordsModel VA2Model VA2Vars CallbackModel.
Import ListNotations.
Open Scope string_scope.
Open Scope list_scope.
Open Scope Z_scope.

(** ---- What the user asked for: the last word counts. ---- *)

Definition setting := (option vobj * option vobj)%type.   (* normal, purchase list *)

(** What an assigned value means for an attribute of a class. *)
Definition meaning (c : cbclass) (a : arg) : setting :=
  match a with
  | AObj o => (c_default o, c_purchase o)
  | ARaw v => match c with
              | CDefault => (v, None)
              | CPurchase => (None, v)
              | CDual => (v, v)
              | CGraphics => (v, None)
              end
  end.

(** [hist] has the latest statement first. *)
Fixpoint wanted (c : cbclass) (n : string) (hist : list event) : setting :=
  match hist with
  | [] => (None, None)
  | EAssign m a :: r => if String.eqb m n then meaning c a else wanted c n r
  | EField m p v :: r =>
    if String.eqb m n
    then (if p then (fst (wanted c n r), v) else (v, snd (wanted c n r)))
    else wanted c n r
  | _ :: r => wanted c n r
  end.
Fixpoint wanted_prop (c : cbclass) (n : string) (hist : list event) : setting :=
  match hist with
  | [] => (None, None)
  | EPropAssign m a :: r => if String.eqb m n then meaning c a else wanted_prop c n r
  | EPropField m p v :: r =>
    if String.eqb m n
    then (if p then (fst (wanted_prop c n r), v) else (v, snd (wanted_prop c n r)))
    else wanted_prop c n r
  | _ :: r => wanted_prop c n r
  end.

(** A callback (property) of a feature: its name, number and class. *)
Definition callback_of (f : Z) (n : string) (cb : Z) (c : cbclass) : Prop :=
  exists fl, In (cb, mk_cbd n fl c) (table CALLBACKS f).
Definition property_of (f : Z) (n : string) (p : Z) (c : cbclass) : Prop :=
  In (p, (n, c)) (table PROPERTIES f).

(** Does a setting count as "the callback is set"? *)
Definition set_for (c : cbclass) (s : setting) : Prop :=
  match c with
  | CDefault => fst s <> None
  | CPurchase => snd s <> None
  | _ => fst s <> None \/ snd s <> None
  end.

(** ---- What the game does with a switch. ---- *)

(** The value of a one-variable expression: the variable's bits. [var] gives
    the 32-bit variables. *)
Definition code_value (f : Z) (var : Z -> Z) (code : string) : option Z :=
  match va2_vars f with
  | None => None
  | Some tab => match tab (nm code) with
                | Some d => Some (Z.shiftr (var (vd_var d)) (vd_start d) mod 2 ^ vd_size d)
                | None => None
                end
  end.

(** Follow switches until something that is not a switch: first matching
    range, else the default. *)
Fixpoint run (f : Z) (var : Z -> Z) (t : target) : option target :=
  match t with
  | TSwitch code ranges d =>
    match code_value f var code with
    | None => None
    | Some x =>
      (fix go (l : list (Z * target)) : option target :=
         match l with
         | [] => run f var d
         | (k, t) :: r => if k =? x then run f var t else go r
         end) ranges
    end
  | _ => Some t
  end.

(** Action 3: the purchase list is entry 255; without one the default. *)
Definition entry (purchase : bool) (m : option target * list (Z * target)) : option target :=
  if purchase then match dict_get Z.eqb (snd m) 255 with Some t => Some t | None => fst m end
  else fst m.

(** The game asks for callback [cb] with information [info]: variable 0C is
    the callback, variable 10 the information. *)
Definition request (cb info : Z) (var : Z -> Z) : Prop :=
  0 <= cb < 65536 /\ var 12 = cb /\ 0 <= info < 2 ^ 32 /\ var 16 = info.

Definition answers (f : Z) (purchase : bool) (m : option target * list (Z * target)) (cb info : Z) (t : target) : Prop :=
  exists e, entry purchase m = Some e /\ forall var, request cb info var -> run f var e = Some t.

(** ---- Callback masks of the NewGRF specification: bit of each callback
    that needs one (bits 8.. are in the second property). ---- *)
Definition documented_bits (f : Z) : list (Z * Z) :=
  match f with
  | 0 | 1 | 2 | 3 => [(16, 0); (17, 1); (18, 2); (21, 3); (22, 4); (25, 5); (45, 6); (51, 7); (353, 8)]
  | 4 => [(19, 0); (20, 1); (321, 2); (322, 3); (329, 4)]
  | 7 => [(23, 0); (26, 1); (27, 2); (28, 3); (30, 4); (31, 5); (32, 6); (33, 7); (42, 8); (46, 9);
          (323, 10); (334, 11); (335, 12)]
  | 9 => [(38, 0); (39, 1); (43, 2); (44, 3); (47, 4); (48, 5); (60, 6)]
  | 10 => [(34, 0); (40, 3); (41, 4); (53, 5); (55, 6); (56, 7); (58, 8); (59, 9); (61, 10); (330, 11);
           (331, 12); (332, 13); (351, 14)]
  | 11 => [(57, 0); (325, 1)]
  | 15 => [(343, 0); (344, 1); (346, 2); (347, 3); (348, 4); (349, 5)]
  | 17 => [(339, 0); (340, 1); (336, 5)]
  | 20 => [(19, 0); (321, 1); (322, 2)]
  | _ => []
  end.
Definition documented_bit (f cb : Z) : option Z := dict_get Z.eqb (documented_bits f) cb.

(** Property numbers of callback 36 (the constants the library itself lists,
    lib/callback.py:24-70, are those of the NewGRF specification). *)
Definition documented_props (f : Z) : list (string * Z) :=
  match f with
  | 0 => [("loading_speed", 7); ("max_speed", 9); ("power", 11); ("running_cost_factor", 13); ("cargo_capacity", 20);
          ("weight", 22); ("cost_factor", 23); ("tractive_effort_coefficient", 31); ("shorten_by", 33);
          ("bitmask_vehicle_info", 37); ("cargo_age_period", 43); ("curve_speed_mod", 46)]
  | 1 => [("loading_speed", 7); ("running_cost_factor", 9); ("cargo_capacity", 15); ("cost_factor", 17); ("power", 19);
          ("weight", 20); ("max_speed", 21); ("tractive_effort_coefficient", 24); ("cargo_age_period", 34);
          ("shorten_by", 35)]
  | 2 => [("loading_speed", 7); ("cost_factor", 10); ("max_speed", 11); ("cargo_capacity", 13);
          ("running_cost_factor", 15); ("cargo_age_period", 29)]
  | 3 => [("loading_speed", 7); ("cost_factor", 11); ("max_speed", 12); ("running_cost_factor", 14);
          ("primary_cargo_capacity", 15); ("secondary_cargo_capacity", 17); ("cargo_age_period", 28); ("range", 31)]
  | _ => []
  end.

(** Callback numbers of the NewGRF specification (for rail, road and
    tramtypes: the graphics types), by the library's names. *)
Definition documented_callbacks (f : Z) : list (string * Z) :=
  match f with
  | 0 => [("random_trigger", 0x01); ("cargo_capacity", 0x15); ("cargo_subtype_text", 0x19); ("additional_text", 0x23);
      ("colour_mapping", 0x2D); ("start_stop", 0x31); ("every_32_days", 0x32); ("sound_effect", 0x33);
      ("refit_cost", 0x15E); ("name", 0x161); ("reverse_build_probability", 0x162); ("change_properties", 0x36);
      ("visual_effect_and_powered", 0x10); ("articulated_part", 0x16); ("can_attach_wagon", 0x1D); ("create_effect", 0x160)]
  | 1 => [("random_trigger", 0x01); ("cargo_capacity", 0x15); ("cargo_subtype_text", 0x19); ("additional_text", 0x23);
      ("colour_mapping", 0x2D); ("start_stop", 0x31); ("every_32_days", 0x32); ("sound_effect", 0x33);
      ("refit_cost", 0x15E); ("name", 0x161); ("reverse_build_probability", 0x162); ("change_properties", 0x36);
      ("visual_effect", 0x10); ("articulated_part", 0x16); ("create_effect", 0x160)]
  | 2 => [("random_trigger", 0x01); ("cargo_capacity", 0x15); ("cargo_subtype_text", 0x19); ("additional_text", 0x23);
      ("colour_mapping", 0x2D); ("start_stop", 0x31); ("every_32_days", 0x32); ("sound_effect", 0x33);
      ("refit_cost", 0x15E); ("name", 0x161); ("reverse_build_probability", 0x162); ("change_properties", 0x36);
      ("visual_effect", 0x10)]
  | 3 => [("random_trigger", 0x01); ("cargo_capacity", 0x15); ("cargo_subtype_text", 0x19); ("additional_text", 0x23);
      ("colour_mapping", 0x2D); ("start_stop", 0x31); ("every_32_days", 0x32); ("sound_effect", 0x33);
      ("refit_cost", 0x15E); ("name", 0x161); ("reverse_build_probability", 0x162); ("change_properties", 0x36)]
  | 4 => [("availability", 0x13); ("select_sprite_layout", 0x14); ("select_tile_layout", 0x24); ("anim_control", 0x140);
      ("anim_next_frame", 0x141); ("anim_speed", 0x142); ("tile_check", 0x149)]
  | 5 => [("sprite_offset", 0x147)]
  | 7 => [("random_trigger", 0x01); ("construction_check", 0x17); ("anim_next_frame", 0x1A); ("anim_control", 0x1B);
      ("construction_anim", 0x1C); ("colour", 0x1E); ("cargo_amount_accept", 0x1F); ("anim_speed", 0x20);
      ("destruction", 0x21); ("cargo_type_accept", 0x2A); ("cargo_production", 0x2E); ("protection", 0x143);
      ("watched_cargo_accepted", 0x148); ("name", 0x14D); ("foundations", 0x14E); ("autoslope", 0x14F)]
  | 9 => [("random_trigger", 0x01); ("anim_control", 0x25); ("anim_next_frame", 0x26); ("anim_speed", 0x27);
      ("cargo_amount_accept", 0x2B); ("cargo_type_accept", 0x2C); ("tile_check", 0x2F); ("foundations", 0x30);
      ("autoslope", 0x3C)]
  | 10 => [("construction_probability", 0x22); ("location_check", 0x28); ("random_prod_change", 0x29); ("monthly_prod_change", 0x35);
      ("cargo_subtype_display", 0x37); ("extra_text_fund", 0x38); ("extra_text_industry", 0x3A); ("control_special", 0x3B);
      ("stop_accept_cargo", 0x3D); ("colour", 0x14A); ("input_cargo", 0x14B); ("output_cargo", 0x14C);
      ("init_production", 0x15F)]
  | 11 => [("profit", 0x39); ("station_rating", 0x145)]
  | 13 => [("additional_text", 0x155); ("layout_name", 0x156)]
  | 15 => [("tile_check", 0x157); ("anim_next_frame", 0x158); ("anim_control", 0x159); ("anim_speed", 0x15A);
      ("colour", 0x15B); ("additional_text", 0x15C); ("autoslope", 0x15D)]
  | 16 => [("gui", 0x00); ("track_overlay", 0x01); ("underlay", 0x02); ("tunnels", 0x03);
      ("catenary_wire", 0x04); ("catenary_pylons", 0x05); ("bridge_surfaces", 0x06); ("level_crossings", 0x07);
      ("depots", 0x08); ("fences", 0x09); ("tunnel_overlay", 0x0A); ("signals", 0x0B);
      ("precombined", 0x0C)]
  | 17 => [("foundations", 0x150); ("anim_control", 0x152); ("anim_next_frame", 0x153); ("anim_speed", 0x154)]
  | 18 => [("gui", 0x00); ("track_overlay", 0x01); ("underlay", 0x02); ("tunnels", 0x03);
      ("catenary_front", 0x04); ("catenary_back", 0x05); ("bridge_surfaces", 0x06); ("depots", 0x08);
      ("roadstops", 0x0A); ("direction_markings", 0x0B)]
  | 19 => [("gui", 0x00); ("track_overlay", 0x01); ("underlay", 0x02); ("tunnels", 0x03);
      ("catenary_front", 0x04); ("catenary_back", 0x05); ("bridge_surfaces", 0x06); ("depots", 0x08)]
  | 20 => [("availability", 0x13); ("anim_control", 0x140); ("anim_next_frame", 0x141); ("anim_speed", 0x142)]
  | _ => []
  end.
