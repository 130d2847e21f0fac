(** Model of the Action 2 records other than switches: GenericSpriteLayout,
    BasicSpriteLayout, AdvancedSpriteLayout, RandomSwitch and
    IndustryProductionCallback (grf/actions.py:1530-1652, 1834-1921), and of
    decode_action2 (grf/decompile.py:335-404, 526-689).  Definitions only. *)
From Coq Require Import ZArith List Bool.
From Verif Require Import Base CommonModel RecordsModel Action14Model VA2Model VA2DecodeModel.
Import ListNotations.
Open Scope Z_scope.

(** ** GenericSpriteLayout: actions.py:1531-1561 *)
Record generic := mkGen2 { gl_feature : Z; gl_ref_id : Z; gl_ent1 : list Z; gl_ent2 : list Z }.
(** 1542-1544: the constructor's checks. *)
Definition generic_init (g : generic) : option generic :=
  do! (negb (memz (gl_feature g) [7; 9; 15; 17; 10]));
  do! (forallb (fun x => (0 <=? x) && (x <=? 65535)) (gl_ent1 g ++ gl_ent2 g));
  Some g.
(** 1551-1561 *)
Definition generic_data (g : generic) : option bytes :=
  do h <- concat_opt [pack_B 2; pack_B (gl_feature g); pack_B (gl_ref_id g); pack_B (len (gl_ent1 g)); pack_B (len (gl_ent2 g))];
  do r <- concat_opt (map pack_H (gl_ent1 g ++ gl_ent2 g));
  Some (h ++ r).

(** ** Sprites of tile layouts *)
(** The keys a layout sprite dictionary may have besides 'sprite', 'offset',
    'extent' and 'pixel_offset': the keys of SPRITE_FLAGS (parser.py:789-800)
    and 'palette'. *)
Inductive skey := KDodraw | KAdd | KAddPalette | KCustomPalette | KDeltaParentXY | KDeltaParentZ
  | KDeltaChildX | KDeltaChildY | KSpriteVar10 | KPaletteVar10 | KPalette.
Scheme Equality for skey.
Inductive sval := SInt (n : Z) | STemp (n : Z) | STrue | SPair (a b : Z).

(** parser.py:789-800: (key, parent state, mask, size, converted to Temp). *)
Definition SPRITE_FLAGS : list (skey * (option bool * Z * Z * bool)) :=
  [(KDodraw, (None, 1, 1, false)); (KAdd, (None, 2, 1, true)); (KAddPalette, (None, 4, 1, false));
   (KCustomPalette, (None, 8, 0, false)); (KDeltaParentXY, (Some true, 16, 2, false));
   (KDeltaParentZ, (Some true, 32, 1, false)); (KDeltaChildX, (Some false, 16, 1, false));
   (KDeltaChildY, (Some false, 32, 1, false)); (KSpriteVar10, (None, 64, 1, false));
   (KPaletteVar10, (None, 128, 1, false))].

Record lsprite := mkLS {
  ls_sprite : sprite_ref; ls_offset : option (list Z); ls_extent : option (list Z);
  ls_pixel : option (list Z); ls_regs : list (skey * sval) }.
Definition has_reg (s : lsprite) (k : skey) : bool :=
  match dict_get skey_beq (ls_regs s) k with Some _ => true | None => false end.
Definition is_some {A} (o : option A) : bool := match o with Some _ => true | None => false end.
(** 'extent' in sprite or 'offset' in sprite *)
Definition ls_parent (s : lsprite) : bool := is_some (ls_extent s) || is_some (ls_offset s).
Definition state_skips (st : option bool) (is_parent : bool) : bool :=
  match st with Some p => negb (Bool.eqb p is_parent) | None => false end.

(** actions.py:1602-1608 *)
Definition sprite_flags (s : lsprite) : Z :=
  fold_left (fun flags e => let '(k, (st, mask, _, _)) := e in
    if state_skips st (ls_parent s) then flags else if has_reg s k then Z.lor flags mask else flags) SPRITE_FLAGS 0.

Definition opt_default {A} (d : A) (o : option A) : A := match o with Some a => a | None => d end.

(** bytes((val,)); val.register when the key is 'add' (1625-1632). *)
Definition reg_bytes (s : lsprite) (k : skey) : option bytes :=
  match dict_get skey_beq (ls_regs s) k with
  | None => Some []
  | Some v =>
      match k, v with
      | KAdd, STemp n => mk_bytes [n]
      | KAdd, _ => None
      | _, SInt n => mk_bytes [n]
      | _, STrue => Some [1]
      | _, _ => None
      end
  end.

(** actions.py:1601-1634 _encode_sprite; struct.pack with a tuple of another
    length raises. *)
Definition encode_sprite (aux : bool) (s : lsprite) : option bytes :=
  do h <- concat_opt [pack_I (sr_to_grf false (ls_sprite s)); pack_H (sprite_flags s)];
  do o <- (if aux then
             if ls_parent s then
               do o <- (match opt_default [0; 0; 0] (ls_offset s) with
                        | [x; y; z] => concat_opt [pack_b x; pack_b y; pack_B z] | _ => None end);
               do e <- (match opt_default [0; 0; 0] (ls_extent s) with
                        | [x; y; z] => concat_opt [pack_B x; pack_B y; pack_B z] | _ => None end);
               Some (o ++ e)
             else
               match opt_default [0; 0] (ls_pixel s) with
               | x :: y :: _ => concat_opt [pack_B x; pack_B y; pack_B 128] | _ => None end
           else Some []);
  do r <- concat_opt (map (reg_bytes s) [KDodraw; KAdd; KPalette; KSpriteVar10; KPaletteVar10]);
  Some (h ++ o ++ r).

(** ** AdvancedSpriteLayout: 1591-1643 *)
Record layout := mkLay { ly_feature : Z; ly_ref_id : Z; ly_ground : lsprite; ly_buildings : list lsprite }.
(** 1592-1594 *)
Definition advanced_init (l : layout) : option layout :=
  do! (memz (ly_feature l) [7; 9; 15; 10; 20]); do! (len (ly_buildings l) <? 64); Some l.
Definition advanced_data (l : layout) : option bytes :=
  do h <- concat_opt [pack_B 2; pack_B (ly_feature l); pack_B (ly_ref_id l); pack_B (len (ly_buildings l) + 64)];
  do g <- encode_sprite false (ly_ground l);
  do b <- concat_opt (map (encode_sprite true) (ly_buildings l));
  Some (h ++ g ++ b).

(** ** BasicSpriteLayout: 1573-1588; one building, [ly_buildings] = [b]. *)
Definition basic_data (l : layout) : option bytes :=
  match ly_buildings l with
  | [b] =>
      match ls_offset b, ls_extent b with
      | Some [x; y], Some [ex; ey; ez] =>
          concat_opt [pack_B 2; pack_B (ly_feature l); pack_B (ly_ref_id l); pack_B 0;
            pack_I (sr_to_grf false (ls_sprite (ly_ground l))); pack_I (sr_to_grf false (ls_sprite b));
            pack_b x; pack_b y; pack_B ex; pack_B ey; pack_B ez]
      | _, _ => None
      end
  | _ => None
  end.

(** ** Decoding layouts: decompile.py:335-404 *)
(** 335-358 read_sprite_layout_registers *)
Fixpoint rd_regs (tabl : list (skey * (option bool * Z * Z * bool))) (flags : Z) (is_parent : bool) (d : bytes)
  : option (list (skey * sval) * bytes) :=
  match tabl with
  | [] => Some ([], d)
  | (k, (st, mask, size, conv)) :: tabl =>
      if Z.land flags mask =? 0 then rd_regs tabl flags is_parent d
      else if state_skips st is_parent then rd_regs tabl flags is_parent d
      else
        do (v, d) <- (if size =? 0 then Some (STrue, d)
                      else if size =? 1 then do (b, d) <- rd_B d; Some ((if conv : bool then STemp b else SInt b), d)
                      else do (a, d) <- rd_B d; do (b, d) <- rd_B d; Some (SPair a b, d));
        do (r, d) <- rd_regs tabl flags is_parent d;
        Some ((k, v) :: r, d)
  end.

(** 369-372 read_sprite *)
Definition rd_sprite (has_flags : bool) (d : bytes) : option (sprite_ref * Z * bytes) :=
  do (s, d) <- rd_I d;
  do (f, d) <- (if has_flags then rd_H d else Some (0, d));
  Some (sr_from_grf false s, f, d).
(** 374-376 *)
Definition rd_ground (has_flags : bool) (d : bytes) : option (lsprite * bytes) :=
  do (s, f, d) <- rd_sprite has_flags d;
  do (r, d) <- rd_regs SPRITE_FLAGS f false d;
  Some (mkLS s None None None r, d).
(** 379-389 *)
Definition rd_building (has_flags has_z : bool) (d : bytes) : option (lsprite * bytes) :=
  do (s, f, d) <- rd_sprite has_flags d;
  do (x, d) <- rd_B d; do (y, d) <- rd_B d;
  do (z, d) <- (if has_z then rd_B d else Some (0, d));
  if negb (z =? 128) then
    do (ex, d) <- rd_B d; do (ey, d) <- rd_B d; do (ez, d) <- rd_B d;
    do (r, d) <- rd_regs SPRITE_FLAGS f true d;
    Some (mkLS s (Some [x; y; z]) (Some [ex; ey; ez]) None r, d)
  else
    do (r, d) <- rd_regs SPRITE_FLAGS f false d;
    Some (mkLS s None None (Some [x; y]) r, d).

(** 360-404 read_sprite_layout; the result says which class is built. *)
Inductive layout_kind := LBasic | LExtended | LAdvanced.
Definition read_sprite_layout (feature ref_id num : Z) (basic : bool) (d : bytes) : option (layout_kind * layout) :=
  do! (memz feature [7; 9; 15; 10]);
  let has_flags := negb (Z.land num 64 =? 0) in
  let n := Z.land num 63 in
  do (g, d) <- rd_ground has_flags d;
  do (b, d) <- rd_n (rd_building has_flags (negb basic)) (Z.to_nat n) d;
  let l := mkLay feature ref_id g b in
  if basic then do! (len b =? 1); Some (LBasic, l)
  else Some ((if has_flags then LAdvanced else LExtended), l).

(** ** RandomSwitch: actions.py:1834-1869 *)
Inductive rscope := RSelf | RParent | RRelative.
Definition scope_eqb (a b : rscope) : bool :=
  match a, b with RSelf, RSelf | RParent, RParent | RRelative, RRelative => true | _, _ => false end.
Record random := mkRand {
  rs_feature : Z; rs_ref_id : Z; rs_scope : rscope; rs_count : option Z; rs_triggers : Z;
  rs_cmp_all : bool; rs_lowest : Z; rs_groups : list ref_obj }.
(** 1836-1839: the constructor's checks. *)
Definition random_init (r : random) : option random :=
  do! (Bool.eqb (scope_eqb (rs_scope r) RRelative && is_vehicle (rs_feature r)) (is_some (rs_count r)));
  Some r.
(** 1856-1869 *)
Definition random_data (r : random) : option bytes :=
  do h <- mk_bytes [2; rs_feature r; rs_ref_id r; match rs_scope r with RSelf => 128 | RParent => 131 | RRelative => 132 end];
  do c <- (if scope_eqb (rs_scope r) RRelative && negb (is_vehicle (rs_feature r))
           then do c <- rs_count r; mk_bytes [c] else Some []);
  do t <- concat_opt [pack_B (Z.lor (rs_triggers r) (Z.b2z (rs_cmp_all r) * 128)); pack_B (rs_lowest r); pack_B (len (rs_groups r))];
  do g <- concat_opt (map (fun x => pack_H (get_ref_id x)) (rs_groups r));
  Some (h ++ c ++ t ++ g).
(** decompile.py:528-548 read_random_switch (then the constructor). *)
Definition read_random_switch (feature atype ref_id : Z) (d : bytes) : option random :=
  do scope <- (if atype =? 128 then Some RSelf else if atype =? 131 then Some RParent
               else if atype =? 132 then Some RRelative else None);
  do (count, d) <- (if scope_eqb scope RRelative && is_vehicle feature
                    then do (c, d) <- rd_B d; Some (Some c, d) else Some (None, d));
  do (t, d) <- rd_B d; do (l, d) <- rd_B d; do (n, d) <- rd_B d;
  do (g, d) <- rd_n rd_H (Z.to_nat n) d;
  random_init (mkRand feature ref_id scope count (Z.land t 127) (negb (Z.land t 128 =? 0)) l (map RRef g)).

(** ** IndustryProductionCallback: actions.py:1872-1911.  Inputs and outputs
    are lists of numbers (versions 0, 1) or of pairs (version 2). *)
Record production := mkProd { pr_version : Z; pr_in : list (list Z); pr_out : list (list Z); pr_again : Z }.
(** 1873-1880 *)
Definition production_init (p : production) : option production :=
  do! ((0 <=? pr_version p) && (pr_version p <=? 2));
  do! (if pr_version p <? 2 then (len (pr_in p) =? 3) && (len (pr_out p) =? 2)
       else (len (pr_in p) <? 256) && (len (pr_out p) <? 256));
  Some p.
(** 1888-1911.  'W' is not a struct format: version 0 raises.  [as_lists]: the
    pairs are Python lists (sum(..., []) raises on tuples); a number counts as
    a one-element list here.  The first byte is 0A. *)
Definition production_data (as_lists : bool) (p : production) : option bytes :=
  let i := concat (pr_in p) in let o := concat (pr_out p) in
  if pr_version p =? 0 then None
  else if pr_version p =? 1 then
    do! ((len i =? 3) && (len o =? 2));
    concat_opt (map pack_B ([10; pr_version p] ++ i ++ o ++ [pr_again p]))
  else
    do! (as_lists || (match pr_in p, pr_out p with [], [] => true | _, _ => false end));
    do! ((len i =? 2 * len (pr_in p)) && (len o =? 2 * len (pr_out p)));
    concat_opt (map pack_B ([10; pr_version p; len (pr_in p)] ++ i ++ [len (pr_out p)] ++ o ++ [pr_again p])).

(** decompile.py:651-674 *)
Definition rd_pair (d : bytes) : option (list Z * bytes) :=
  do (a, d) <- rd_B d; do (b, d) <- rd_B d; Some ([a; b], d).
Definition rd_num (version : Z) (d : bytes) : option (list Z * bytes) :=
  do (a, d) <- (if version =? 0 then rd_H d else rd_B d); Some ([a], d).
Definition read_production (version : Z) (d : bytes) : option production :=
  if version <? 2 then
    do (i, d) <- rd_n (rd_num version) 3 d; do (o, d) <- rd_n (rd_num version) 2 d;
    do (a, d) <- rd_B d; production_init (mkProd version i o a)
  else if version =? 2 then
    do (n, d) <- rd_B d; do (i, d) <- rd_n rd_pair (Z.to_nat n) d;
    do (m, d) <- rd_B d; do (o, d) <- rd_n rd_pair (Z.to_nat m) d;
    do (a, d) <- rd_B d; production_init (mkProd version i o a)
  else None.

(** ** decode_action2: decompile.py:551-557 and 625-689 (the switch branch is
    VA2DecodeModel.decode_switch). *)
Inductive action2 :=
| A2Switch (s : switch) | A2Random (r : random) | A2Layout (k : layout_kind) (l : layout)
| A2Production (p : production) | A2Generic (g : generic).
Definition decode_action2 (vinvs : Z -> option inv_table) (data : bytes) : option action2 :=
  do (f, d) <- rd_B data; do f <- feature_of f;
  do (ref_id, d) <- rd_B d;
  do (atype, d) <- rd_B d;
  if memz atype [129; 130; 133; 134; 137; 138] then do s <- decode_switch vinvs data; Some (A2Switch s)
  else if memz atype [128; 131; 132] then do r <- read_random_switch f atype ref_id d; Some (A2Random r)
  else if memz f [7; 9; 15; 17] then
    do (k, l) <- read_sprite_layout f ref_id (Z.max atype 1) (atype =? 0) d; Some (A2Layout k l)
  else if f =? 10 then do p <- read_production atype d; Some (A2Production p)
  else
    do (n2, d) <- rd_B d;
    do (e1, d) <- rd_n rd_H (Z.to_nat atype) d;
    do (e2, d) <- rd_n rd_H (Z.to_nat n2) d;
    do g <- generic_init (mkGen2 f ref_id e1 e2); Some (A2Generic g).
