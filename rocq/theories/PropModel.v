(** Model of the Action 0 property codecs (grf/actions.py:198-305, 478-711,
    744-776, 799-820, 855-889, 936-1051, 1137-1152), of
    DefineMultiple._encode_value (1378-1421) and read_property
    (grf/decompile.py:161-210).  Definitions only.

    [validate] of the properties is never called by the library and is not
    modelled.  str values are represented by their UTF-8 bytes. *)
From Coq Require Import ZArith List Bool.
From Verif Require Import Base CommonModel RecordsModel VA2Model Action2Model.
Import ListNotations.
Open Scope Z_scope.

(** The formats of the property tables: format strings and property classes. *)
Inductive fmt :=
| FB | FbS | FW | FD | FL | FBx | FnB | F8B | F2L | FnL | F3B | FnmW | F4B | F12x32B | F0E | FV
| PDate | PId (extended : bool) | PClimate | PByteList | PTileAcceptance | PMultiDict | PBridge | PIndustryLayouts
| POldStation | PNewStation | PSizeTuple.

(** ** Property values *)
(** A label given as an int or as bytes. *)
Inductive label := LInt (n : Z) | LBytes (b : bytes).
(** A value of a multi-dictionary: one string or several. *)
Inductive mval := MOne (b : bytes) | MMany (l : list bytes).
(** 936-998: the items of an industry layout. *)
Inductive itile := INew (x y id : Z) | IOld (x y id : Z) | ICheck (x y : Z).
(** 478-521: sprites of station layouts.  The attribute [flags] is set by the
    reader and not used by the writer; it is left out. *)
Record child := mkCh { ch_ref : sprite_ref; ch_x : Z; ch_y : Z; ch_regs : list (skey * sval) }.
Record ground := mkGr { gr_ref : sprite_ref; gr_regs : list (skey * sval); gr_children : list child }.
Record parent := mkPa { pa_ref : sprite_ref; pa_offset : Z * Z * Z; pa_extent : Z * Z * Z;
  pa_regs : list (skey * sval); pa_children : list child }.
Record slayout := mkSL { sl_ground : ground; sl_parents : list parent }.
Inductive pv :=
| VInt (n : Z) | VObj (id : Z) | VBytes (b : bytes) | VTuple (l : list Z) | VList (l : list Z)
| VLabels (l : list label) (tuple : bool) | VPairs (l : list (Z * Z)) | VDate (d : date_value)
| VDict (l : list (Z * mval)) | VBridge (id : Z) (tables : list (list sprite_ref)) | VIndustry (l : list (list itile))
| VStation (l : list (option slayout)) | VMatrix (l : list (list Z)).

(** ** Encoding *)
(** 1372-1376 _encode_label *)
Definition encode_label (l : label) : option bytes :=
  match l with LInt n => pack_I n | LBytes b => do! (len b =? 4); Some b end.
(** 248-257 IDProperty.encode; 233-238 _resolve *)
Definition encode_id (extended : bool) (v : pv) : option bytes :=
  do n <- (match v with VInt n => Some n | VObj n => Some n | _ => None end);
  if extended then encode_ext n else pack_H n.
(** 882-889 MultiDictProperty.encode *)
Definition encode_strings (k : Z) (l : list bytes) : option bytes :=
  concat_opt (map (fun v => do h <- mk_bytes [k]; Some (h ++ v ++ [0])) l).
Definition encode_multi (l : list (Z * mval)) : option bytes :=
  do b <- concat_opt (map (fun e => encode_strings (fst e) (match snd e with MOne v => [v] | MMany vs => vs end)) l);
  Some (b ++ [0]).
(** 769-773 BridgeLayoutProperty.encode *)
Definition encode_table (t : list sprite_ref) : option bytes :=
  do! (len t =? 32); concat_opt (map (fun r => pack_I (sr_to_grf false r)) t).
(** 964, 979, 996: encode of the industry tiles *)
Definition encode_tile (t : itile) : option bytes :=
  match t with
  | INew x y id => concat_opt [pack_B x; pack_B y; pack_B 254; pack_H id]
  | IOld x y id => concat_opt [pack_B x; pack_B y; pack_B id]
  | ICheck x y => concat_opt [pack_b x; pack_b y; pack_B 255]
  end.
(** 937-948, 951-955, 967-972, 982-990: the checks of the constructors. *)
Definition byte_ofs (x y : Z) : bool :=
  (0 <=? x) && (x <? 256) && (0 <=? y) && (y <? 256) && negb ((x =? 0) && (y =? 128)).
Definition tile_init (t : itile) : bool :=
  match t with
  | INew x y id => (0 <=? id) && (id <=? 65535) && byte_ofs x y
  | IOld x y id => (0 <=? id) && (id <? 254) && byte_ofs x y
  | ICheck x y => (-128 <=? x) && (x <? 128) && (-128 <=? y) && (y <? 128) && negb ((x =? 0) && (y =? -128))
  end.
Definition tile_x (t : itile) : Z := match t with INew x _ _ | IOld x _ _ | ICheck x _ => x end.
(** 1000-1003 IndustryLayout.__init__ *)
Definition layout_init (l : list itile) : bool :=
  forallb tile_init l && match l with [] => true | t :: _ => negb (tile_x t =? 254) end.
(** 1040-1047 *)
Definition encode_industry (l : list (list itile)) : option bytes :=
  do b <- concat_opt (map (fun x => do t <- concat_opt (map encode_tile x); Some (t ++ [0; 128])) l);
  do h <- concat_opt [pack_B (len l); pack_I (len b)];
  Some (h ++ b).
(** 586-612 encode_sprite_layout_registers, in the order of the dictionary. *)
Definition encode_reg (is_parent : bool) (e : skey * sval) : option (bytes * Z) :=
  let (k, v) := e in
  do info <- dict_get skey_beq SPRITE_FLAGS k;
  let '(st, mask, size, conv) := info in
  do! (negb (state_skips st is_parent));
  do v <- (if conv : bool then match v with STemp n => Some (SInt n) | _ => None end else Some v);
  if size =? 0 then Some ([], match v with SInt n => if n =? 0 then 0 else mask | _ => mask end)
  else if size =? 1 then
    do b <- (match v with SInt n => mk_bytes [n] | STrue => Some [1] | _ => None end); Some (b, mask)
  else do b <- (match v with SPair x y => mk_bytes [x; y] | _ => None end); Some (b, mask).
Fixpoint encode_regs (is_parent : bool) (l : list (skey * sval)) : option (bytes * Z) :=
  match l with
  | [] => Some ([], 0)
  | e :: l =>
      do (b, m) <- encode_reg is_parent e; do (c, n) <- encode_regs is_parent l;
      Some (b ++ c, Z.lor m n)
  end.
(** 615-636 encode_sprite, for the ground sprite and the parent sprites; the
    children are never visited (640-650). *)
Definition encode_ground (g : ground) : option bytes :=
  do (r, f) <- encode_regs true (gr_regs g);
  do h <- concat_opt [pack_I (sr_to_grf false (gr_ref g)); pack_H f];
  Some (h ++ r).
Definition encode_parent (p : parent) : option bytes :=
  do (r, f) <- encode_regs true (pa_regs p);
  let '(x, y, z) := pa_offset p in
  let '(ex, ey, ez) := pa_extent p in
  do h <- concat_opt [pack_I (sr_to_grf false (pa_ref p)); pack_H f; mk_bytes [x; y; z]; mk_bytes [ex; ey; ez]];
  Some (h ++ r).
(** 639-653 encode_sprite_layout(layout, True, False) *)
Definition encode_slayout (l : slayout) : option bytes :=
  do! (len (sl_parents l) <? 64);
  concat_opt (mk_bytes [Z.lor (len (sl_parents l)) 64] :: encode_ground (sl_ground l) :: map encode_parent (sl_parents l)).
(** 705-710 NewStationLayoutProperty.encode *)
Definition encode_station (l : list (option slayout)) : option bytes :=
  do! (len l <=? 65535);
  concat_opt (pack_B 255 :: pack_H (len l) :: map (fun o => do s <- o; encode_slayout s) l).

(** 1378-1421 _encode_value, with encode of the property classes: 221-226,
    272-273, 304-305, 815-820, 1148-1151.  context.format_error only builds an
    exception and does not raise it (grf/common.py:357-358). *)
Definition encode_value (f : fmt) (v : pv) : option bytes :=
  match f with
  | FB => match v with VInt n => pack_B n | _ => None end
  | FbS => match v with VInt n => pack_b n | _ => None end
  | FW => match v with VInt n => pack_H n | _ => None end
  | FD => match v with VInt n => pack_I n | _ => None end
  | FL => match v with VInt n => encode_label (LInt n) | VBytes b => encode_label (LBytes b) | _ => None end
  | FBx => match v with VInt n => concat_opt [pack_B 255; pack_H n] | _ => None end
  | FnB =>
      match v with
      | VBytes b => concat_opt [pack_B (len b); Some b]
      | VList l => concat_opt [pack_B (len l); mk_bytes l]
      | _ => None
      end
  | F8B =>
      match v with
      | VTuple l | VList l => do! (len l =? 8); concat_opt (map pack_B l)
      | VBytes l => do! (len l =? 8); Some l
      | _ => None
      end
  | F2L =>
      match v with
      | VLabels l _ => do! (len l =? 2); concat_opt (map encode_label l)
      | VTuple l | VList l | VBytes l => do! (len l =? 2); concat_opt (map (fun n => encode_label (LInt n)) l)
      | _ => None
      end
  | FnL =>
      match v with
      | VLabels l _ => concat_opt (mk_bytes [len l] :: map encode_label l)
      | VTuple l | VList l | VBytes l => concat_opt (mk_bytes [len l] :: map (fun n => encode_label (LInt n)) l)
      | _ => None
      end
  | PDate => match v with VDate d => dateprop_encode d | VInt n => dateprop_encode (DVInt n) | _ => None end
  | PId extended => encode_id extended v
  | PClimate => match v with VInt n => pack_B n | _ => None end
  | PByteList =>
      match v with
      | VTuple l | VList l => concat_opt [pack_B (len l); mk_bytes l]
      | VBytes b => concat_opt [pack_B (len b); Some b]
      | _ => None
      end
  | PTileAcceptance => match v with VPairs l => concat_opt (mk_bytes [len l] :: map (fun e => mk_bytes [fst e; snd e]) l) | _ => None end
  | PMultiDict => match v with VDict l => encode_multi l | _ => None end
  | PBridge => match v with VBridge id t => concat_opt (mk_bytes [id; len t] :: map encode_table t) | _ => None end
  | PIndustryLayouts => match v with VIndustry l => encode_industry l | _ => None end
  | PNewStation => match v with VStation l => encode_station l | _ => None end
  | PSizeTuple =>
      match v with
      | VTuple (x :: y :: _) => mk_bytes [Z.lor (Z.shiftl y 4) x]
      | VInt n => mk_bytes [n]
      | _ => None
      end
  | POldStation | F3B | FnmW | F4B | F12x32B | F0E | FV => None
  end.

(** ** Reading *)
Definition rd_slice (n : Z) (d : bytes) : bytes * bytes := slice (Z.to_nat n) d.
Definition rd_label (d : bytes) : option (label * bytes) := let (a, d) := rd_slice 4 d in Some (LBytes a, d).
Definition rd_pair (d : bytes) : option ((Z * Z) * bytes) := do (a, d) <- rd_B d; do (b, d) <- rd_B d; Some ((a, b), d).
(** 862-876 MultiDictProperty.read; when a string is not terminated Python's
    find gives -1 and the loop restarts at the beginning, here None. *)
Definition multi_add (res : list (Z * mval)) (k : Z) (v : bytes) : list (Z * mval) :=
  match dict_get Z.eqb res k with
  | Some (MMany l) => dict_set Z.eqb res k (MMany (l ++ [v]))
  | Some (MOne x) => dict_set Z.eqb res k (MMany [x; v])
  | None => dict_set Z.eqb res k (MOne v)
  end.
Fixpoint rd_multi (fuel : nat) (res : list (Z * mval)) (d : bytes) : option (list (Z * mval) * bytes) :=
  match fuel with
  | O => None
  | S fuel =>
      do (k, d) <- rd_B d;
      if k =? 0 then Some (res, d)
      else do n <- find0 d; rd_multi fuel (multi_add res k (firstn n d)) (skipn (S n) d)
  end.
(** 1016-1036: one layout.  The counter [k] runs to [size], the byte size of all
    layouts; the fuel is the number of bytes left. *)
Fixpoint rd_tiles (fuel : nat) (k size : Z) (d : bytes) : option (list itile * bytes) :=
  match fuel with
  | O => None
  | S fuel =>
      if size <=? k then Some ([], d)
      else
        do (x, d) <- rd_B d;
        do! (negb ((x =? 254) && (k =? 0)));
        do (y, d) <- rd_B d;
        if (x =? 0) && (y =? 128) then Some ([], d)
        else
          do (g, d) <- rd_B d;
          do (t, d) <- (if g =? 254 then do (id, d) <- rd_H d; Some (INew x y id, d)
                        else if g =? 255 then Some (ICheck (utoi8 (Z.land x 255)) (utoi8 (Z.land y 255)), d)
                        else Some (IOld x y g, d));
          do! (tile_init t);
          do (l, d) <- rd_tiles fuel (k + 1) size d;
          Some (t :: l, d)
  end.
Definition rd_industry (d : bytes) : option (list (list itile) * bytes) :=
  do (n, d) <- rd_B d;
  do (size, d) <- rd_I d;
  rd_n (fun d => do (l, d) <- rd_tiles (S (length d)) 0 size d; do! (layout_init l); Some (l, d)) (Z.to_nat n) d.
(** 546-583 read_sprite_layout(d, num, False, global_if_flagged=False): the
    sprites after the ground sprite, [cur] being the sprite children go to. *)
Inductive top := TGround (g : ground) | TParent (p : parent).
Definition add_child (t : top) (c : child) : top :=
  match t with
  | TGround g => TGround (mkGr (gr_ref g) (gr_regs g) (gr_children g ++ [c]))
  | TParent p => TParent (mkPa (pa_ref p) (pa_offset p) (pa_extent p) (pa_regs p) (pa_children p ++ [c]))
  end.
Fixpoint rd_parts (n : nat) (has_flags : bool) (cur : top) (d : bytes) : option (list top * bytes) :=
  match n with
  | O => Some ([cur], d)
  | S n =>
      do (r, f, d) <- rd_sprite has_flags d;
      do (x, d) <- rd_B d; do (y, d) <- rd_B d; do (z, d) <- rd_B d;
      if z =? 128 then
        do (regs, d) <- rd_regs SPRITE_FLAGS f false d;
        rd_parts n has_flags (add_child cur (mkCh r x y regs)) d
      else
        do (ex, d) <- rd_B d; do (ey, d) <- rd_B d; do (ez, d) <- rd_B d;
        do (regs, d) <- rd_regs SPRITE_FLAGS f true d;
        do (l, d) <- rd_parts n has_flags (TParent (mkPa r (x, y, z) (ex, ey, ez) regs [])) d;
        Some (cur :: l, d)
  end.
Fixpoint parents_of (l : list top) : list parent :=
  match l with [] => [] | TParent p :: l => p :: parents_of l | TGround _ :: l => parents_of l end.
Definition slayout_of (l : list top) : option slayout :=
  match l with TGround g :: l => Some (mkSL g (parents_of l)) | _ => None end.
Definition rd_slayout (d : bytes) : option (option slayout * bytes) :=
  do (num, d) <- rd_B d;
  let has_flags := negb (Z.land num 64 =? 0) in
  do (r, f, d) <- rd_sprite has_flags d;
  do (regs, d) <- rd_regs SPRITE_FLAGS f false d;
  do (l, d) <- rd_parts (Z.to_nat (Z.land num 63)) has_flags (TGround (mkGr r regs [])) d;
  do s <- slayout_of l;
  Some (Some s, d).
(** 658-686 OldStationLayoutProperty.read *)
Fixpoint rd_old_parts (fuel : nat) (cur : top) (d : bytes) : option (list top * bytes) :=
  match fuel with
  | O => None
  | S fuel =>
      do (x, d) <- rd_B d;
      if x =? 128 then Some ([cur], d)
      else
        do (y, d) <- rd_B d; do (z, d) <- rd_B d;
        do (ex, d) <- rd_B d; do (ey, d) <- rd_B d; do (ez, d) <- rd_B d;
        do (s, d) <- rd_I d;
        let r := sr_from_grf false s in
        if z =? 128 then rd_old_parts fuel (add_child cur (mkCh r x y [])) d
        else do (l, d) <- rd_old_parts fuel (TParent (mkPa r (x, y, z) (ex, ey, ez) [] [])) d; Some (cur :: l, d)
  end.
Definition rd_old_layout (d : bytes) : option (option slayout * bytes) :=
  do (g, d) <- rd_I d;
  if g =? 0 then Some (None, d)
  else
    do (l, d) <- rd_old_parts (S (length d)) (TGround (mkGr (sr_from_grf false g) [] [])) d;
    do s <- slayout_of l;
    Some (Some s, d).

(** decompile.py:161-210 read_property, with read of the property classes:
    actions.py:217-219, 240-246, 265-266, 299-302, 752-767, 810-813, 699-703,
    1145-1146. *)
Definition read_value (f : fmt) (d : bytes) : option (pv * bytes) :=
  match f with
  | FB | PClimate => do (n, d) <- rd_B d; Some (VInt n, d)
  | FbS => do (n, d) <- rd_b d; Some (VInt n, d)
  | FW => do (n, d) <- rd_H d; Some (VInt n, d)
  | FD => do (n, d) <- rd_I d; Some (VInt n, d)
  | FL => let (b, d) := rd_slice 4 d in Some (VBytes b, d)
  | FBx => do (n, d) <- rd_ext d; Some (VInt n, d)
  | FnB => do (n, d) <- rd_B d; let (b, d) := rd_slice n d in Some (VBytes b, d)
  | FnL => do (n, d) <- rd_B d; do (l, d) <- rd_n rd_label (Z.to_nat n) d; Some (VLabels l false, d)
  | F3B => do (l, d) <- rd_n rd_B 3 d; Some (VTuple l, d)
  | F2L => do (l, d) <- rd_n rd_label 2 d; Some (VLabels l true, d)
  | FnmW =>
      do (n, d) <- rd_B d; do (m, d) <- rd_B d;
      do (l, d) <- rd_n (rd_n rd_H (Z.to_nat m)) (Z.to_nat n) d; Some (VMatrix l, d)
  | PDate => do (v, d) <- dateprop_read d; Some (match v with DVInt n => VInt n | v => VDate v end, d)
  | PId extended => do (n, d) <- (if extended then rd_ext d else rd_H d); Some (VInt n, d)
  | PByteList => do (n, d) <- rd_B d; let (b, d) := rd_slice n d in Some (VTuple b, d)
  | PTileAcceptance => do (n, d) <- rd_B d; do (l, d) <- rd_n rd_pair (Z.to_nat n) d; Some (VPairs l, d)
  | PMultiDict => do (l, d) <- rd_multi (S (length d)) [] d; Some (VDict l, d)
  | PBridge =>
      do (id, d) <- rd_B d; do (n, d) <- rd_B d;
      do (t, d) <- rd_n (rd_n (fun d => do (s, d) <- rd_I d; Some (sr_from_grf false s, d)) 32) (Z.to_nat n) d;
      Some (VBridge id t, d)
  | PIndustryLayouts => do (l, d) <- rd_industry d; Some (VIndustry l, d)
  | POldStation => do (n, d) <- rd_ext d; do (l, d) <- rd_n rd_old_layout (Z.to_nat n) d; Some (VStation l, d)
  | PNewStation => do (n, d) <- rd_ext d; do (l, d) <- rd_n rd_slayout (Z.to_nat n) d; Some (VStation l, d)
  | PSizeTuple => do (n, d) <- rd_B d; Some (VTuple [Z.land n 15; Z.shiftr n 4], d)
  | F8B | F4B | F12x32B | F0E | FV => None
  end.
