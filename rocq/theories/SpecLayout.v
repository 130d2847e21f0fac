(** The byte layout of the records, as the NewGRF specification gives it:
    what the game reads.  Written with plain arithmetic, independently of the
    packing helpers of the model. *)
From Coq Require Import ZArith List Bool.
From Verif Require Import Base CommonModel RecordsModel Action2Model.
Import ListNotations.
Open Scope Z_scope.

(** Little-endian words. *)
Definition w16 (v : Z) : bytes := [v mod 256; v / 256 mod 256].
Definition w32 (v : Z) : bytes := [v mod 256; v / 256 mod 256; v / 65536 mod 256; v / 16777216 mod 256].
(** Extended byte, long form. *)
Definition xw (v : Z) : bytes := 255 :: w16 v.
(** Extended byte, short form where possible. *)
Definition xb (v : Z) : bytes := if v <? 255 then [v] else xw v.
Definition zterm (s : bytes) : bytes := s ++ [0].
Definition count {A} (l : list A) : Z := Z.of_nat (length l).

(** What a reference is in the file: an Action 2 id, or a callback result with
    bit 15 set. *)
Definition ref_num (r : ref_obj) : Z :=
  match r with
  | RRef v => v
  | RAct i => i
  | RInt n | RSound n => if n <? 32768 then n + 32768 else n
  end.

Definition lay1 (a : action1) : bytes :=
  match a1_first_set a with
  | None => if a1_set_count a <? 256
            then [1; a1_feature a; a1_set_count a] ++ xw (a1_sprite_count a)
            else [1; a1_feature a; 0] ++ xw 0 ++ xw (a1_set_count a) ++ xw (a1_sprite_count a)
  | Some s => [1; a1_feature a; 0] ++ xw s ++ xw (a1_set_count a) ++ xw (a1_sprite_count a)
  end.

(** [ids] is the common way the ids are written: as bytes when all are below
    255, as long extended bytes otherwise. *)
Definition lay3 (a : action3) : bytes :=
  [3; a3_feature a; count (a3_ids a)]
  ++ flat_map (fun i => if forallb (fun j => j <? 255) (a3_ids a) then [i] else xw i) (a3_ids a)
  ++ [count (a3_maps a)]
  ++ flat_map (fun kv => fst kv :: w16 (ref_num (snd kv))) (a3_maps a)
  ++ w16 (ref_num (a3_default a)).

Definition lay4 (a : action4) : bytes :=
  [4; a4_feature a; if a4_generic a then a4_lang a + 128 else a4_lang a; count (a4_strings a)]
  ++ (if a4_generic a then w16 (a4_offset a)
      else if a4_feature a <=? 3 then xb (a4_offset a) else [a4_offset a])
  ++ flat_map zterm (a4_strings a).

Definition lay5 (a : action5) : bytes :=
  match a5_offset a with
  | None => [5; a5_type a] ++ xw (a5_count a)
  | Some o => [5; a5_type a + 128] ++ xw (a5_count a) ++ xw o
  end.

Definition lay6 (ps : list patch6) : bytes :=
  [6] ++ flat_map (fun p => let '(num, size, offset) := p in [num; size] ++ xw offset) ps ++ [255].

Definition le_digits (n : nat) (v : Z) : bytes := map (fun i => v / 256 ^ Z.of_nat i mod 256) (seq 0 n).
Definition lay7 (a : action7) (size : Z) : bytes :=
  [if a7_static a then 9 else 7; a7_var a; size; a7_cond a]
  ++ (match a7_value a with IVBytes b => b | IVInt n => le_digits (Z.to_nat size) n end) ++ [a7_skip a].

Definition lay8 (a : action8) : bytes :=
  [8; a8_version a] ++ a8_grfid a ++ zterm (a8_name a) ++ zterm (a8_desc a).

Definition layA (sets : list (Z * Z)) : bytes :=
  [10; count sets] ++ flat_map (fun s => let '(first, num) := s in num :: w16 first) sets.

(** An error message: a built-in message has no text of its own; the data text
    is there when there is a text parameter or further parameters. *)
Definition layB (a : actionB) : bytes :=
  [11; ab_severity a; ab_lang a]
  ++ (match ab_message a with MBuiltin n => [n] | MText t => 255 :: zterm t end)
  ++ (match ab_text_param a, ab_params a with
      | None, [] => []
      | Some t, ps => zterm t ++ ps
      | None, ps => zterm [] ++ ps
      end).

Definition layD (a : actionD) (value : bytes) : bytes :=
  [13; ad_target a; if ad_if_undefined a then ad_op a + 128 else ad_op a; ad_src1 a; ad_src2 a]
  ++ (if (ad_src1 a =? 255) || (ad_src2 a =? 255) then value else []).

Definition lay10 (a : action10) : bytes := [16; a10_label a] ++ a10_comment a.
Definition lay11 (n : Z) : bytes := 17 :: w16 n.
Definition layFE (a : actionFE) : bytes := [254; 0] ++ afe_grfid a ++ w16 (afe_number a).
Definition lay12 (glyphs : list (Z * Z * Z)) : bytes :=
  [18; count glyphs] ++ flat_map (fun g => let '(f, c, b) := g in [f; c] ++ w16 b) glyphs.

Definition layGeneric (g : generic) : bytes :=
  [2; gl_feature g; gl_ref_id g; count (gl_ent1 g); count (gl_ent2 g)] ++ flat_map w16 (gl_ent1 g) ++ flat_map w16 (gl_ent2 g).

Definition layRandom (r : random) : bytes :=
  [2; rs_feature r; rs_ref_id r; match rs_scope r with RSelf => 128 | RParent => 131 | RRelative => 132 end]
  ++ (match rs_scope r, rs_count r with RRelative, Some c => [c] | _, _ => [] end)
  ++ [if rs_cmp_all r then rs_triggers r + 128 else rs_triggers r; rs_lowest r; count (rs_groups r)]
  ++ flat_map (fun g => w16 (ref_num g)) (rs_groups r).

(** The flag word of a sprite of an advanced layout, bit by bit: bits 4 and 5
    mean the parent's offsets for a sprite with an offset or an extent, the
    pixel offsets for a child sprite. *)
Definition layFlags (s : lsprite) : Z :=
  let has k := Z.b2z (is_some (dict_get skey_beq (ls_regs s) k)) in
  let parent := is_some (ls_offset s) || is_some (ls_extent s) in
  has KDodraw + 2 * has KAdd + 4 * has KAddPalette + 8 * has KCustomPalette
  + 16 * has (if parent then KDeltaParentXY else KDeltaChildX)
  + 32 * has (if parent then KDeltaParentZ else KDeltaChildY)
  + 64 * has KSpriteVar10 + 128 * has KPaletteVar10.

(** One register byte per key present; 'add' names its register. *)
Definition layReg (s : lsprite) (k : skey) : bytes :=
  match dict_get skey_beq (ls_regs s) k with
  | None => []
  | Some (SInt n) | Some (STemp n) => [n]
  | Some STrue => [1]
  | Some (SPair a b) => [a; b]
  end.
Definition laySprite (aux : bool) (s : lsprite) : bytes :=
  (w32 (sr_to_grf false (ls_sprite s)) ++ w16 (layFlags s))
  ++ (if aux then
        if is_some (ls_offset s) || is_some (ls_extent s)
        then map (fun v => v mod 256) (opt_default [0; 0; 0] (ls_offset s)) ++ opt_default [0; 0; 0] (ls_extent s)
        else firstn 2 (opt_default [0; 0] (ls_pixel s)) ++ [128]
      else [])
  ++ flat_map (layReg s) [KDodraw; KAdd; KSpriteVar10; KPaletteVar10].
Definition layAdvanced (l : layout) : bytes :=
  [2; ly_feature l; ly_ref_id l; count (ly_buildings l) + 64]
  ++ laySprite false (ly_ground l) ++ flat_map (laySprite true) (ly_buildings l).
