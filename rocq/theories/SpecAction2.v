(** Specification vocabulary for the Action 2 records (C08, C09, C12, C52):
    which records the format can express ([_ok]) and what the reader is
    expected to return for them ([_norm]). *)
From Coq Require Import ZArith List Bool.
From Verif Require Import Base CommonModel RecordsModel VA2Model Action2Model.
Import ListNotations.
Open Scope Z_scope.

(** The first count byte doubles as the record type: these values announce a
    (random) switch. *)
Definition switch_types : list Z := [128; 129; 130; 131; 132; 133; 134; 137; 138].

Definition generic_ok (g : generic) : Prop :=
  0 <= gl_feature g <= 20 /\ ~ In (gl_feature g) [7; 9; 10; 15; 17] /\
  ~ In (len (gl_ent1 g)) switch_types.

(** Keys whose value the layout writer emits where the reader expects it. *)
Definition plain_keys : list skey := [KDodraw; KAdd; KCustomPalette; KSpriteVar10; KPaletteVar10].

Definition sprite_id_ok (r : sprite_ref) : Prop := 0 <= sr_id r < 16384 /\ 0 <= sr_pal r < 16384.

Definition ground_ok (s : lsprite) : Prop :=
  sprite_id_ok (ls_sprite s) /\ incl (map fst (ls_regs s)) plain_keys.

(** A building: a parent sprite has an offset or an extent, with the offset not
    negative and its height not 128 (which marks a child sprite). *)
Definition building_ok (s : lsprite) : Prop :=
  sprite_id_ok (ls_sprite s) /\ incl (map fst (ls_regs s)) plain_keys /\
  (forall x y z, ls_offset s = Some [x; y; z] -> 0 <= x /\ 0 <= y /\ z <> 128).

Definition layout_ok (l : layout) : Prop :=
  In (ly_feature l) [7; 9; 15] /\ ground_ok (ly_ground l) /\ Forall building_ok (ly_buildings l) /\
  len (ly_buildings l) < 64.

(** The value of a key as the game sees it: the bare flag, a number, or a
    register. *)
Definition norm_val (k : skey) (v : sval) : sval :=
  match k, v with KCustomPalette, _ => STrue | KAdd, v => v | _, STrue => SInt 1 | _, v => v end.
(** The same keys in the order of the format's flag bits. *)
Definition norm_regs (r : list (skey * sval)) : list (skey * sval) :=
  flat_map (fun k => match dict_get skey_beq r k with Some v => [(k, norm_val k v)] | None => [] end) plain_keys.

Definition ground_norm (s : lsprite) : lsprite := mkLS (ls_sprite s) None None None (norm_regs (ls_regs s)).
Definition building_norm (s : lsprite) : lsprite :=
  match ls_offset s, ls_extent s with
  | None, None => mkLS (ls_sprite s) None None (Some (firstn 2 (opt_default [0; 0] (ls_pixel s)))) (norm_regs (ls_regs s))
  | o, e => mkLS (ls_sprite s) (Some (opt_default [0; 0; 0] o)) (Some (opt_default [0; 0; 0] e)) None (norm_regs (ls_regs s))
  end.
Definition layout_norm (l : layout) : layout :=
  mkLay (ly_feature l) (ly_ref_id l) (ground_norm (ly_ground l)) (map building_norm (ly_buildings l)).

(** Values the writer accepts. *)
Definition val_ok (k : skey) (v : sval) : Prop :=
  match k, v with
  | KCustomPalette, _ => True
  | KAdd, STemp n => 0 <= n < 256
  | KAdd, _ => False
  | _, SInt n => 0 <= n < 256
  | _, STrue => True
  | _, _ => False
  end.
Definition regs_ok (r : list (skey * sval)) : Prop := Forall (fun kv => val_ok (fst kv) (snd kv)) r.
Definition byte3 (l : list Z) : Prop := exists x y z, l = [x; y; z] /\ 0 <= x < 256 /\ 0 <= y < 256 /\ 0 <= z < 256.
Definition building_enc (s : lsprite) : Prop :=
  regs_ok (ls_regs s) /\
  (forall o, ls_offset s = Some o -> exists x y z, o = [x; y; z] /\ 0 <= x < 128 /\ 0 <= y < 128 /\ 0 <= z < 256) /\
  (forall e, ls_extent s = Some e -> byte3 e) /\
  (forall p, ls_pixel s = Some p -> exists x y, p = [x; y] /\ 0 <= x < 256 /\ 0 <= y < 256).

Definition random_ok (r : random) : Prop :=
  0 <= rs_feature r <= 20 /\ rs_scope r <> RRelative /\ rs_count r = None /\ 0 <= rs_triggers r < 128.
Definition random_norm (r : random) : random :=
  mkRand (rs_feature r) (rs_ref_id r) (rs_scope r) (rs_count r) (rs_triggers r) (rs_cmp_all r) (rs_lowest r)
    (map (fun x => RRef (get_ref_id x)) (rs_groups r)).

(** The bytes of an industry production callback (Action 2 for feature 0A) as
    NewGRF specifies them: words in version 0, bytes in version 1, counted
    (cargo, register) pairs in version 2. *)
Definition lo_hi (v : Z) : bytes := [v mod 256; v / 256].
Inductive production_bytes (ref_id : Z) : production -> bytes -> Prop :=
| pb0 a b c x y again : Forall (fun v => 0 <= v < 65536) [a; b; c; x; y] -> 
    production_bytes ref_id (mkProd 0 [[a]; [b]; [c]] [[x]; [y]] again)
      ([2; 10; ref_id; 0] ++ lo_hi a ++ lo_hi b ++ lo_hi c ++ lo_hi x ++ lo_hi y ++ [again])
| pb1 a b c x y again :
    production_bytes ref_id (mkProd 1 [[a]; [b]; [c]] [[x]; [y]] again)
      [2; 10; ref_id; 1; a; b; c; x; y; again]
| pb2 i o again : (length i < 256)%nat -> (length o < 256)%nat ->
    Forall (fun p => length p = 2%nat) i -> Forall (fun p => length p = 2%nat) o ->
    production_bytes ref_id (mkProd 2 i o again)
      ([2; 10; ref_id; 2; Z.of_nat (length i)] ++ concat i ++ [Z.of_nat (length o)] ++ concat o ++ [again]).
