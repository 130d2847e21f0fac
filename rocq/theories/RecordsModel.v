(** Model of the fixed-layout action records: encoders of grf/actions.py and
    decoders of grf/decompile.py.  Definitions only.

    A decoder receives the record without its action byte, as
    grf/decompile.py:1022-1047 decode_pseudo_sprite calls [decoder(data[1:])].
    Parsing-context bookkeeping (context.set_graphics / set_sound) and
    PyComment entries are left out; a decoder returns the action it builds.
    A Feature object is its id. *)
From Coq Require Import ZArith List Bool.
From Verif Require Import Base CommonModel.
Import ListNotations.
Open Scope Z_scope.

(** ** Python helpers *)

(** bytes.find(b'\0') on a suffix: position of the first zero byte. *)
Fixpoint find0 (d : bytes) : option nat :=
  match d with
  | [] => None
  | b :: r => if b =? 0 then Some O else option_map S (find0 r)
  end.

(** d[:-1] *)
Definition drop_last (d : bytes) : bytes := removelast d.

(** bytes.split(b'\0') *)
Fixpoint split0 (d : bytes) : list bytes :=
  match d with
  | [] => [[]]
  | b :: r => if b =? 0 then [] :: split0 r
              else match split0 r with
                   | [] => [[b]]
                   | h :: t => (b :: h) :: t
                   end
  end.

(** b'\0'.join(strings) *)
Fixpoint join0 (l : list bytes) : bytes :=
  match l with
  | [] => []
  | [s] => s
  | s :: r => s ++ 0 :: join0 r
  end.

(** grf/common.py:182 VEHICLE_FEATURES. *)
Definition is_vehicle (f : Z) : bool := (0 <=? f) && (f <=? 3).

(** ** References: grf/actions.py:25-33 Ref, 49-56 get_ref_id *)
Inductive ref_obj :=
| RRef (value : Z)      (* Ref / CB *)
| RInt (n : Z)          (* a plain int: callback result *)
| RSound (id : Z)       (* a Sound with its id *)
| RAct (ref_id : Z).    (* a ReferenceableAction with its ref_id *)

Definition get_ref_id (r : ref_obj) : Z :=
  match r with
  | RRef v => v
  | RInt n => Z.lor n 32768
  | RSound i => Z.lor i 32768
  | RAct i => i
  end.

(** ** Action 1: grf/actions.py:1484-1505 Action1 (SpriteSet 1517-1519 is set_count=1) *)
Record action1 := mkA1 { a1_feature : Z; a1_set_count : Z; a1_sprite_count : Z; a1_first_set : option Z }.

Definition action1_data (a : action1) : option bytes :=
  match a1_first_set a with
  | None =>
      if a1_set_count a <=? 255 then
        concat_opt [pack_B 1; pack_B (a1_feature a); pack_B (a1_set_count a); pack_B 255;
                    pack_H (a1_sprite_count a)]
      else
        concat_opt [pack_B 1; pack_B (a1_feature a); pack_B 0;
                    pack_B 255; pack_H 0; pack_B 255; pack_H (a1_set_count a);
                    pack_B 255; pack_H (a1_sprite_count a)]
  | Some f =>
      concat_opt [pack_B 1; pack_B (a1_feature a); pack_B 0;
                  pack_B 255; pack_H f; pack_B 255; pack_H (a1_set_count a);
                  pack_B 255; pack_H (a1_sprite_count a)]
  end.

(** grf/decompile.py:252-277 decode_action1. *)
Definition decode_action1 (d : bytes) : option action1 :=
  do (f, d) <- rd_B d; do f <- feature_of f;
  do (set_count, d) <- rd_B d;
  if set_count =? 0 then
    do (first_set, d) <- rd_ext d;
    do (set_count, d) <- rd_ext d;
    do (sprite_count, d) <- rd_ext d;
    Some (mkA1 f set_count sprite_count (Some first_set))
  else
    do (sprite_count, d) <- rd_ext d;
    Some (mkA1 f set_count sprite_count None).

(** ** Action 3: grf/actions.py:1935-1971 *)
Record action3 := mkA3 {
  a3_feature : Z; a3_ids : list Z; a3_maps : list (Z * ref_obj);
  a3_default : ref_obj; a3_wagon_override : bool }.

Definition action3_data (a : action3) : option bytes :=
  let idcount := len (a3_ids a) in
  if idcount =? 0 then
    (* packs self.default itself, so only a plain int is accepted *)
    match a3_default a with
    | RInt n => concat_opt [pack_B 3; pack_B (a3_feature a); pack_B idcount; pack_B 0; pack_H n]
    | _ => None
    end
  else
    let long := existsb (fun x => 255 <=? x) (a3_ids a) in
    concat_opt
      ([pack_B 3; pack_B (a3_feature a); pack_B idcount]
       ++ map (fun x => if long then concat_opt [pack_B 255; pack_H x] else pack_B x) (a3_ids a)
       ++ [pack_B (len (a3_maps a))]
       ++ map (fun kv => concat_opt [pack_B (fst kv); pack_H (get_ref_id (snd kv))]) (a3_maps a)
       ++ [pack_H (get_ref_id (a3_default a))]).

(** maps[ctype] = groupid: a Python dict as an association list in insertion
    order; assigning an existing key keeps its position. *)
Fixpoint dict_set {K V} (eqb : K -> K -> bool) (l : list (K * V)) (k : K) (v : V) : list (K * V) :=
  match l with
  | [] => [(k, v)]
  | (k', v') :: r => if eqb k k' then (k', v) :: r else (k', v') :: dict_set eqb r k v
  end.
Fixpoint dict_get {K V} (eqb : K -> K -> bool) (l : list (K * V)) (k : K) : option V :=
  match l with
  | [] => None
  | (k', v') :: r => if eqb k k' then Some v' else dict_get eqb r k
  end.

Definition rd_map_entry (d : bytes) : option ((Z * ref_obj) * bytes) :=
  do (ctype, d) <- rd_B d; do (g, d) <- rd_H d; Some ((ctype, RRef g), d).

(** grf/decompile.py:692-717 decode_action3.  The override flag is computed
    but not passed on (711-716). *)
Definition decode_action3 (d : bytes) : option action3 :=
  do (f, d) <- rd_B d; do f <- feature_of f;
  do (n, d) <- rd_B d;
  let idcount := if flag n 128 then Z.land n 127 else n in
  if n =? 0 then
    do (_, d) <- rd_B d;
    do (default, d) <- rd_H d;
    Some (mkA3 f [] [] (RRef default) false)
  else
    do (objs, d) <- rd_n rd_ext (Z.to_nat idcount) d;
    do (cidcount, d) <- rd_B d;
    do (entries, d) <- rd_n rd_map_entry (Z.to_nat cidcount) d;
    do (default, d) <- rd_H d;
    Some (mkA3 f objs (fold_left (fun m kv => dict_set Z.eqb m (fst kv) (snd kv)) entries [])
               (RRef default) false).

(** ** Action 4: grf/actions.py:1999-2045 *)
Record action4 := mkA4 {
  a4_feature : Z; a4_lang : Z; a4_offset : Z; a4_generic : bool; a4_strings : list bytes }.

(** 2000-2008: the checks of the constructor. *)
Definition action4_ctor (a : action4) : bool :=
  if is_vehicle (a4_feature a) || a4_generic a
  then (0 <=? a4_offset a) && (a4_offset a <=? 65535)
  else (0 <=? a4_offset a) && (a4_offset a <=? 255).

(** 2019-2026 get_data. *)
Definition action4_data (a : action4) : option bytes :=
  let str_data := join0 (a4_strings a) ++ [0] in
  if a4_generic a then
    concat_opt [pack_B 4; pack_B (a4_feature a); pack_B (Z.lor (a4_lang a) 128);
                pack_B (len (a4_strings a)); pack_H (a4_offset a); Some str_data]
  else if is_vehicle (a4_feature a) && (255 <=? a4_offset a) then
    concat_opt [pack_B 4; pack_B (a4_feature a); pack_B (a4_lang a);
                pack_B (len (a4_strings a)); pack_B 255; pack_H (a4_offset a); Some str_data]
  else
    concat_opt [pack_B 4; pack_B (a4_feature a); pack_B (a4_lang a);
                pack_B (len (a4_strings a)); pack_B (a4_offset a); Some str_data].

(** grf/decompile.py:720-740 decode_action4; [assert len(strings) == num];
    the constructor checks run on the result. *)
Definition decode_action4 (d : bytes) : option action4 :=
  do (f, d) <- rd_B d; do f <- feature_of f;
  do (lang, d) <- rd_B d;
  let generic := flag lang 128 in
  do (num, d) <- rd_B d;
  do (offset, d) <-
    (if generic then rd_H d
     else match d with
          | 255 :: d' => if is_vehicle f then rd_H d' else rd_B d
          | _ => rd_B d
          end);
  let str_data := drop_last d in
  let strings := match str_data with [] => [[]] | _ => split0 str_data end in
  let a := mkA4 f (Z.land lang 127) offset generic strings in
  do! (len strings =? num);
  do! (action4_ctor a);
  Some a.

(** ** Action 5: grf/actions.py:2060-2073 *)
Record action5 := mkA5 { a5_type : Z; a5_count : Z; a5_offset : option Z }.

Definition action5_data (a : action5) : option bytes :=
  match a5_offset a with
  | None => concat_opt [pack_B 5; pack_B (a5_type a); pack_B 255; pack_H (a5_count a)]
  | Some o => concat_opt [pack_B 5; pack_B (Z.lor (a5_type a) 128); pack_B 255; pack_H (a5_count a);
                          pack_B 255; pack_H o]
  end.

(** grf/decompile.py:743-751 decode_action5. *)
Definition decode_action5 (d : bytes) : option action5 :=
  do (t, d) <- rd_B d;
  do (num, d) <- rd_ext d;
  if flag t 128 then
    do (o, d) <- rd_ext d;
    Some (mkA5 (Z.land t (Z.lnot 128)) num (Some o))
  else Some (mkA5 t num None).

(** ** Action 6: grf/actions.py:2086-2102; a patch is (num, size, offset). *)
Definition patch6 := (Z * Z * Z)%type.

Definition patch6_data (p : patch6) : option bytes :=
  let '(num, size, offset) := p in
  concat_opt [pack_B num; pack_B size; pack_B 255; pack_H offset].

Definition action6_data (ps : list patch6) : option bytes :=
  concat_opt ([pack_B 6] ++ map patch6_data ps ++ [pack_B 255]).

(** grf/decompile.py:754-764 decode_action6; the loop consumes at least one
    byte per round, so the length of the data bounds the rounds. *)
Fixpoint decode_action6_loop (fuel : nat) (d : bytes) : option (list patch6 * bytes) :=
  match fuel with
  | O => None
  | S fuel =>
      do (num, d) <- rd_B d;
      if num =? 255 then Some ([], d)
      else
        do (size, d) <- rd_B d;
        do (offset, d) <- rd_ext d;
        do (l, d) <- decode_action6_loop fuel d;
        Some ((num, size, offset) :: l, d)
  end.
Definition decode_action6 (d : bytes) : option (list patch6) :=
  do (l, _) <- decode_action6_loop (S (length d)) d; Some l.

(** ** Action 7/9: grf/actions.py:2108-2131 *)
Inductive if_value := IVInt (n : Z) | IVBytes (b : bytes).
Record action7 := mkA7 {
  a7_static : bool; a7_var : Z; a7_varsize : option Z; a7_cond : Z; a7_value : if_value; a7_skip : Z }.

(** 2109: varsize given or value is bytes. *)
Definition action7_ctor (a : action7) : bool :=
  match a7_varsize a, a7_value a with None, IVInt _ => false | _, _ => true end.

(** The bytes (value >> (8*i)) & 0xff for i in range(n). *)
Fixpoint le_bytes (n : nat) (v : Z) : bytes :=
  match n with O => [] | S n => Z.land v 255 :: le_bytes n (Z.shiftr v 8) end.

(** 2119-2131 get_data. *)
Definition action7_data (a : action7) : option bytes :=
  do varsize <- (match a7_varsize a, a7_value a with
                 | Some n, _ => Some n
                 | None, IVBytes b => Some (len b)
                 | None, IVInt _ => None
                 end);
  concat_opt [mk_bytes [if a7_static a then 9 else 7; a7_var a; varsize; a7_cond a];
              Some (match a7_value a with
                    | IVBytes b => b
                    | IVInt n => le_bytes (Z.to_nat varsize) n
                    end);
              mk_bytes [a7_skip a]].

(** sum of data[3 + i] << (8 * i) *)
Fixpoint le_value (l : bytes) : Z :=
  match l with [] => 0 | b :: r => b + Z.shiftl (le_value r) 8 end.

(** grf/decompile.py:767-784 decode_action7or9. *)
Definition decode_action7or9 (is_static : bool) (d : bytes) : option action7 :=
  do (var, d) <- rd_B d;
  do (varsize, d) <- rd_B d;
  do (cond, d) <- rd_B d;
  let varsize := if cond <? 2 then 1 else varsize in
  do (v, d) <- rd_n rd_B (Z.to_nat varsize) d;
  do (skip, d) <- rd_B d;
  Some (mkA7 is_static var (Some varsize) cond (IVInt (le_value v)) skip).

(** ** Action 8: grf/actions.py:2150-2169 (texts as their utf-8 bytes) *)
Record action8 := mkA8 { a8_version : Z; a8_grfid : bytes; a8_name : bytes; a8_desc : bytes }.

Definition action8_data (a : action8) : option bytes :=
  concat_opt [mk_bytes [8; a8_version a]; Some (a8_grfid a ++ a8_name a ++ [0] ++ a8_desc a ++ [0])].

(** grf/decompile.py:791-802 decode_action8.  data.find returning -1 (no
    terminator after position 5) gives name = data[5:-1], description =
    data[0:-1]. *)
Definition decode_action8 (d : bytes) : option action8 :=
  match d with
  | [] => None
  | v :: r =>
      let grfid := firstn 4 r in
      let texts := skipn 4 r in
      match find0 texts with
      | Some pos => Some (mkA8 v grfid (firstn pos texts) (drop_last (skipn (S pos) texts)))
      | None => Some (mkA8 v grfid (drop_last texts) (drop_last d))
      end
  end.

(** ** Action A: grf/actions.py:2193-2205; sets are (first, num). *)
Definition actionA_data (sets : list (Z * Z)) : option bytes :=
  do! (len sets <=? 255);
  concat_opt (mk_bytes [10; len sets]
              :: map (fun s => concat_opt [pack_B (snd s); pack_H (fst s)]) sets).

Definition rd_set (d : bytes) : option ((Z * Z) * bytes) :=
  do (num, d) <- rd_B d; do (first, d) <- rd_H d; Some ((first, num), d).

(** grf/decompile.py:809-814 decode_actionA. *)
Definition decode_actionA (d : bytes) : option (list (Z * Z)) :=
  do (num, d) <- rd_B d;
  do (l, _) <- rd_n rd_set (Z.to_nat num) d;
  Some l.

(** ** Action B: grf/actions.py:2214-2237.  A message is a built-in number or
    a text; to_bytes of texts as utf-8 bytes. *)
Inductive msg := MBuiltin (n : Z) | MText (b : bytes).
Record actionB := mkAB {
  ab_severity : Z; ab_lang : Z; ab_message : msg; ab_text_param : option bytes; ab_params : list Z }.

(** 2216-2220: constructor checks (ANY_LANGUAGE = 0x7f). *)
Definition actionB_ctor (a : actionB) : bool :=
  (0 <=? ab_severity a) && (ab_severity a <? 256)
  && (0 <=? ab_lang a) && (ab_lang a <=? 127) && bytesb (ab_params a).

(** 2227-2237 get_data; an int message 0xFF has no text, so to_bytes fails. *)
Definition actionB_data (a : actionB) : option bytes :=
  let message_id := match ab_message a with MBuiltin n => n | MText _ => 255 end in
  concat_opt
    [mk_bytes [11; ab_severity a; ab_lang a; message_id];
     (if message_id =? 255 then match ab_message a with MText b => Some b | MBuiltin _ => None end
      else Some []);
     Some [0];
     (match ab_text_param a, ab_params a with
      | None, [] => Some []
      | t, ps => concat_opt [Some (match t with Some b => b | None => [] end); Some [0]; mk_bytes ps]
      end)].

(** grf/decompile.py:817-847 decode_actionB (the last element of its result). *)
Definition decode_actionB (d : bytes) : option actionB :=
  do (severity, d) <- rd_B d;
  do (lang, d) <- rd_B d;
  do (m, d) <- rd_B d;
  let '(message, d) :=
    if negb (m =? 255) then
      match find0 d with
      | Some p => (MText (firstn p d), skipn (S p) d)
      | None => (MBuiltin m, d)
      end
    else (MBuiltin m, d) in
  let '(text_param, params) :=
    match d with
    | [] => (None, [])
    | _ => match find0 d with
           | Some p => (Some (firstn p d), skipn (S p) d)
           | None => (None, d)
           end
    end in
  let a := mkAB severity lang message text_param params in
  do! (actionB_ctor a);
  Some a.

(** ** Action C: grf/actions.py:2253-2256: bytes((0x0C)) is bytes(12). *)
Definition actionC_data (data : bytes) : option bytes := Some (repeat 0 12 ++ data).
(** grf/decompile.py:850-851 decode_actionC. *)
Definition decode_actionC (d : bytes) : option bytes := Some d.

(** ** Action D: grf/actions.py:2265-2286 *)
Inductive d_value := DVNone | DVNum (n : Z) | DVRaw (b : bytes).
Record actionD := mkAD {
  ad_target : Z; ad_op : Z; ad_if_undefined : bool; ad_src1 : Z; ad_src2 : Z; ad_value : d_value }.

Definition actionD_data (a : actionD) : option bytes :=
  let op := Z.lor (ad_op a) (128 * Z.b2z (ad_if_undefined a)) in
  concat_opt
    [mk_bytes [13; ad_target a; op; ad_src1 a; ad_src2 a];
     (if (ad_src1 a =? 255) || (ad_src2 a =? 255) then
        match ad_value a with
        | DVRaw b => Some b
        | DVNum n => pack_I n
        | DVNone => None
        end
      else Some [])].

(** grf/decompile.py:871-895 decode_actionD; OPERATIONS (854-868) has the
    keys 0x00..0x0C and is indexed unconditionally. *)
Definition decode_actionD (d : bytes) : option actionD :=
  do (target, d) <- rd_B d;
  do (operation, d) <- rd_B d;
  let if_undefined := flag operation 128 in
  let operation := Z.land operation 127 in
  do (s1, d) <- rd_B d;
  do (s2, d) <- rd_B d;
  do value <- (if (s1 =? 255) || (s2 =? 255)
               then (do (v, _) <- rd_I d; Some (DVNum v)) else Some DVNone);
  do! (operation <=? 12);
  Some (mkAD target operation if_undefined s1 s2 value).

(** ** Action 10: grf/actions.py:2307-2316 *)
Record action10 := mkA10 { a10_label : Z; a10_comment : bytes }.
Definition action10_data (a : action10) : option bytes :=
  do! ((0 <=? a10_label a) && (a10_label a <=? 255));
  concat_opt [mk_bytes [16; a10_label a]; Some (a10_comment a)].
(** grf/decompile.py:898-901 decode_action10. *)
Definition decode_action10 (d : bytes) : option action10 :=
  do (l, d) <- rd_B d; Some (mkA10 l d).

(** ** Action 11: grf/actions.py:2324-2330; grf/decompile.py:904-907 *)
Definition action11_data (count : Z) : option bytes := concat_opt [pack_B 17; pack_H count].
Definition decode_action11 (d : bytes) : option Z := do (n, _) <- rd_H d; Some n.

(** ** Action FE: grf/actions.py:2336-2343; grf/decompile.py:979-982
    (called with data[1:], so grfid = data[1:5] skips the 0x00 byte) *)
Record actionFE := mkAFE { afe_grfid : bytes; afe_number : Z }.
Definition actionFE_data (a : actionFE) : option bytes :=
  concat_opt [Some [254; 0]; Some (afe_grfid a); pack_H (afe_number a)].
Definition decode_actionFE (d : bytes) : option actionFE :=
  do (n, _) <- rd_H (skipn 5 d); Some (mkAFE (firstn 4 (skipn 1 d)) n).

(** ** Action 12: grf/actions.py:2351-2361; the constructor discards its
    argument ([self.glyphs = []]).  A glyph is (font, count, base). *)
Definition action12_ctor (glyphs : list (Z * Z * Z)) : option (list (Z * Z * Z)) :=
  do! (len glyphs <? 256); Some [].
Definition action12_data (glyphs : list (Z * Z * Z)) : option bytes :=
  concat_opt (mk_bytes [18; len glyphs]
    :: map (fun g => let '(f, c, b) := g in concat_opt [pack_B f; pack_B c; pack_H b]) glyphs).
Definition rd_glyph (d : bytes) : option ((Z * Z * Z) * bytes) :=
  do (f, d) <- rd_B d; do (c, d) <- rd_B d; do (b, d) <- rd_H d; Some ((f, c, b), d).
(** grf/decompile.py:910-920 decode_action12. *)
Definition decode_action12 (d : bytes) : option (list (Z * Z * Z)) :=
  do (n, d) <- rd_B d;
  do (l, _) <- rd_n rd_glyph (Z.to_nat n) d;
  action12_ctor l.
