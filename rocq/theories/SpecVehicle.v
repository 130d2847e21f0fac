(** What a user expects of the vehicles of the library, in terms of what the
    game reads from the records.  Only the record and object types are shared
    with the model. *)
From Coq Require Import ZArith List Bool String.
From Verif Require Import Base RecordsModel DecodeModel VA2Model VA2Vars ParserModel CallbackModel SpecCallback VehicleModel.
Import ListNotations.
Open Scope string_scope.
Open Scope list_scope.
Open Scope Z_scope.

(** The variables of the vehicle that is asked, those of its related object
    and those of the vehicle [offset] places further in the consist. *)
Record scene := mk_scene { sc_own : Z -> Z; sc_related : Z -> Z; sc_other : Z -> Z -> Z }.

(** Code of one variable is its bits; code that puts an offset into register
    10F and reads 61 asks that vehicle for a variable. *)
Definition hvalue (f : Z) (vars : Z -> Z) (other : Z -> Z -> Z) (code : bytes) : option Z :=
  match parse_code code with
  | Some [NVar x] =>
      match va2_vars f with
      | Some tab => match tab x with
                    | Some d => Some (Z.shiftr (vars (vd_var d)) (vd_start d) mod 2 ^ vd_size d)
                    | None => None
                    end
      | None => None
      end
  | Some [NExpr 14 (NValue off) (NValue 271); NGenP 97 sh mask None (NValue p)] => Some (Z.land (Z.shiftr (other off p) sh) mask)
  | _ => None
  end.

(** Follow the switches. *)
Fixpoint hrun (f : Z) (sc : scene) (h : hobj) : option hobj :=
  match h with
  | HSwitch related code ranges d =>
    match hvalue f (if related : bool then sc_related sc else sc_own sc) (sc_other sc) code with
    | None => None
    | Some x =>
      (fix go (l : list (Z * hobj)) : option hobj :=
         match l with
         | [] => hrun f sc d
         | (k, t) :: r => if k =? x then hrun f sc t else go r
         end) ranges
    end
  | _ => Some h
  end.

(** The sprite sets in force after the records [pre]: the last Action 1 and
    the sprites that follow it, as many as it announces. *)
Definition in_force (pre : list vrec) (n k : Z) (sprites : list Z) : Prop :=
  exists a b, pre = a ++ RSets n k :: map RReal sprites ++ b /\ len sprites = n * k /\
    forall r, In r b -> match r with RSets _ _ | RReal _ => False | _ => True end.
(** Sprite number [dir] (of 8 directions) of set [i]. *)
Definition set_sprite (pre : list vrec) (i dir s : Z) : Prop :=
  exists n k sprites, in_force pre n k sprites /\ 0 <= i < n /\ nth_error sprites (Z.to_nat (i * k + dir mod k)) = Some s.

(** A layout uses the sets in force where it is written: just before the map
    that uses it, or where it is listed. *)
Definition picture (pre : list vrec) (h : hobj) (dir s : Z) : Prop :=
  match h with
  | HLayout i => set_sprite pre i dir s
  | HListed i => exists a b, pre = a ++ RLayout i :: b /\ (forall j, ~ In (RLayout j) b) /\ set_sprite a i dir s
  | _ => False
  end.

(** The game asks vehicle [id]; following the switches ends at [h], the map
    being written after [pre]. *)
Definition reply (f : Z) (recs : list vrec) (id : Z) (purchase : bool) (sc : scene) (pre : list vrec) (h : hobj) : Prop :=
  exists m objs post e v h0, recs = pre ++ RMap id m objs :: post /\ entry purchase m = Some e /\
    run f (sc_own sc) e = Some (TUser v) /\ dict_get Z.eqb objs (v_id v) = Some h0 /\ hrun f sc h0 = Some h.
(** Drawing is callback 0. *)
Definition asks (cb info : Z) (sc : scene) : Prop := request cb info (sc_own sc).
Definition shows (f : Z) (recs : list vrec) (id : Z) (purchase : bool) (sc : scene) (dir s : Z) : Prop :=
  exists pre h, reply f recs id purchase sc pre h /\ picture pre h dir s.

(** The livery for a cargo subtype: the first if there are not so many. *)
Definition livery_for (ls : list livery) (subtype : Z) : option livery :=
  match nth_error ls (Z.to_nat subtype) with Some l => Some l | None => nth_error ls 0 end.
(** Variable F2. *)
Definition subtype_of (vars : Z -> Z) : Z := vars 242 mod 256.

(** A property of the definition of a vehicle. *)
Definition defined (recs : list vrec) (id : Z) (n : string) (x : Z) : Prop :=
  exists props, In (RDefine id props) recs /\ dict_get String.eqb props n = Some x.
(** The number of definitions and maps of a vehicle. *)
Definition is_map (r : vrec) : bool := match r with RMap _ _ _ => true | _ => false end.

(** Road vehicle speed in the game, in half km/h-ish: property 15 (in units
    of 4) if it is not zero, else property 08; callback 36 for 15, if it
    answers with something else than zero, wins. *)
Definition road_speed (p08 p15 : Z) (cb : option Z) : Z :=
  match cb with
  | Some v => if v =? 0 then if p15 =? 0 then p08 else 4 * p15 else 4 * v
  | None => if p15 =? 0 then p08 else 4 * p15
  end.

(** The reply is an integer; the reply is the user's own object. *)
Definition says (f : Z) (recs : list vrec) (id : Z) (purchase : bool) (sc : scene) (x : Z) : Prop :=
  exists pre, reply f recs id purchase sc pre (HInt x).
Definition reaches (f : Z) (recs : list vrec) (id : Z) (purchase : bool) (sc : scene) (v : vobj) : Prop :=
  exists pre m objs post e, recs = pre ++ RMap id m objs :: post /\ entry purchase m = Some e /\ run f (sc_own sc) e = Some (TUser v).

(** The properties an articulated part may have, by their numbers in the
    NewGRF specification of trains. *)
Definition part_property (n : string) : Prop :=
  exists k f, In k [7; 11; 20; 21; 28; 29; 33; 34; 37; 39; 40; 41; 43; 44; 45; 46] /\ In (k, (n, f)) Action0Model.ACTION0_TRAIN_PROPS.
