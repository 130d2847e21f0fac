(** Which action announced a sprite: grf/decompile.py:30-102 ParsingContext and
    its use in 252-277, 743-751, 809-814, 904-907, 1022-1047 and 1050-1112
    (container version 2), 1226-1233.  Definitions only.

    None means that reading the file stops with an exception.  Exceptions of
    the decoders are caught (1079-1085); the decoders that touch the context
    (actions 1, 5, A, 11) change it last before they build the action, which
    cannot fail, so a decoder that raises changes nothing. *)
From Coq Require Import ZArith List Bool String.
From Verif Require Import Base CommonModel RecordsModel DecodeModel PyValue.
Import ListNotations.
Open Scope string_scope.
Open Scope list_scope.
Open Scope Z_scope.

(** common.py:149-171: the names of the features. *)
Definition FEATURE_NAME : list bytes :=
  map txt ["train"; "rv"; "ship"; "aircraft"; "station"; "canal"; "bridge"; "house"; "global_var"; "industry_tile";
           "industry"; "cargo"; "sound_effect"; "airport"; "signal"; "object"; "railtype"; "airport_tile"; "roadtype";
           "tramtype"; "road_stop"].
Definition feature_name (f : Z) : bytes := nth (Z.to_nat f) FEATURE_NAME [].

(** 31-33 *)
Inductive ptype := TDefault | TGraphics | TSound.
Definition ptype_eqb (a b : ptype) : bool :=
  match a, b with TDefault, TDefault | TGraphics, TGraphics | TSound, TSound => true | _, _ => false end.
(** 35-44 __init__; v1_sprite_id and baseset are for other files.
    action_count and action_size have the same keys: one dictionary. *)
Definition stat_key : Type := Z * ptype.
Record ctx := mk_ctx {
  x_type : ptype; x_group : option bytes; x_groups : list (bytes * Z); x_amount : Z;
  x_sprites : list (Z * (ptype * option bytes)); x_stats : list (stat_key * (Z * Z)) }.
Definition new_ctx : ctx := mk_ctx TDefault None [] (-1) [] [].

(** 60-63 reset *)
Definition reset (c : ctx) : ctx := mk_ctx TDefault None (x_groups c) (-1) (x_sprites c) (x_stats c).
(** 50-58 consume *)
Definition consume (sprite_id : option Z) (c : ctx) : ctx :=
  let c := match sprite_id with
           | None => c
           | Some i => mk_ctx (x_type c) (x_group c) (x_groups c) (x_amount c)
                         (dict_set Z.eqb (x_sprites c) i (x_type c, x_group c)) (x_stats c)
           end in
  match x_type c with
  | TDefault => c
  | t =>
      let amount := x_amount c - 1 in
      let c := mk_ctx t (x_group c) (x_groups c) amount (x_sprites c) (x_stats c) in
      if amount <=? 0 then reset c else c
  end.
(** 65-68 set_sound *)
Definition set_sound (amount : Z) (c : ctx) : ctx := mk_ctx TSound None (x_groups c) amount (x_sprites c) (x_stats c).
(** 70-75 set_graphics *)
Definition group_name (group : bytes) (count : Z) : bytes := group ++ 95 :: str_nat count.
Definition set_graphics (amount : Z) (group : bytes) (c : ctx) : ctx :=
  let count := match dict_get bytes_eq (x_groups c) group with Some n => n | None => 0 end in
  mk_ctx TGraphics (Some (group_name group count)) (dict_set bytes_eq (x_groups c) group (count + 1)) amount (x_sprites c) (x_stats c).
(** 77-78 get_sprite_data *)
Definition get_sprite_data (c : ctx) (i : Z) : ptype * option bytes :=
  match dict_get Z.eqb (x_sprites c) i with Some r => r | None => (TDefault, None) end.
(** 80-90 count_action, count_real_sprite *)
Definition stat_key_eqb (a b : stat_key) : bool := (fst a =? fst b) && ptype_eqb (snd a) (snd b).
Definition count (k : stat_key) (size : Z) (c : ctx) : ctx :=
  let '(n, s) := match dict_get stat_key_eqb (x_stats c) k with Some e => e | None => (0, 0) end in
  mk_ctx (x_type c) (x_group c) (x_groups c) (x_amount c) (x_sprites c) (dict_set stat_key_eqb (x_stats c) k (n + 1, s + size)).
Definition count_action (action_id size : Z) (c : ctx) : ctx :=
  count (action_id, if 253 <? action_id then x_type c else TDefault) size c.
Definition count_real_sprite (sprite_id size : Z) (c : ctx) : ctx :=
  count (255, fst (get_sprite_data c sprite_id)) size c.

(** 985-989 decode_sound_actionFF: always raises (sprite_id is not defined). *)
(** 1041-1047: what the decoder of ACTIONS does to the context. *)
Definition decode_in (t : Z) (d : bytes) (c : ctx) : ctx :=
  if t =? 1 then
    match decode_action1 d with
    | Some a => set_graphics (a1_set_count a * a1_sprite_count a) (feature_name (a1_feature a)) c
    | None => c
    end
  else if t =? 5 then
    match decode_action5 d with Some a => set_graphics (a5_count a) (txt "action5") c | None => c end
  else if t =? 10 then
    match decode_actionA d with
    | Some sets => set_graphics (fold_right Z.add 0 (map snd sets)) (txt "action_a") c
    | None => c
    end
  else if t =? 17 then
    match decode_action11 d with Some n => set_sound n c | None => c end
  else c.
(** 1022-1047 decode_pseudo_sprite; the branch 1033-1040 is never taken. *)
Definition decode_pseudo_sprite (t : Z) (d : bytes) (c : ctx) : ctx :=
  match x_type c with
  | TSound =>
      if t =? 254 then match decode_actionFE d with Some _ => consume None c | None => c end
      else if t =? 255 then c
      else decode_in t d (reset c)
  | _ => decode_in t d c
  end.
(** 1050-1112 read_pseudo_sprite: [r] is the type and data of the record. *)
Definition read_record (r : Z * bytes) (c : ctx) : option ctx :=
  let '(grf_type, data) := r in
  let size := len data + 4 * 2 + 1 in
  if grf_type =? 255 then
    match data with
    | [] => None
    | [_] => Some c
    | t :: d => Some (decode_pseudo_sprite t d (count_action t size c))
    end
  else if grf_type =? 253 then
    let c := count_action 253 size c in
    do! (len data =? 4);
    do (i, _) <- rd_I data;
    Some (consume (Some i) c)
  else
    match data with
    | [] => None
    | t :: _ => Some (consume None (count_action t size c))
    end.
(** 1492-1499 *)
Fixpoint read_records (l : list (Z * bytes)) (c : ctx) : option ctx :=
  match l with [] => Some c | r :: l => do c <- read_record r c; read_records l c end.
(** 1226-1233 of each real sprite, 1501-1507; [reals] are the ids and data
    (8 + num: num is the length of the data). *)
Fixpoint count_reals (reals : list (Z * bytes)) (c : ctx) : ctx :=
  match reals with [] => c | (i, d) :: r => count_reals r (count_real_sprite i (8 + len d) c) end.

(** 1419-1432: the names of the image files of a group; 1336-1338: sprites of
    no group. *)
Definition MISC : bytes := txt "misc".
Definition group_of (c : ctx) (i : Z) : bytes :=
  match snd (get_sprite_data c i) with Some (b :: g) => b :: g | _ => MISC end.
Definition mask_file (group : bytes) : bytes := group ++ txt ".png".
Definition rgba_file (group : bytes) : bytes := group ++ txt "_32bpp.png".
