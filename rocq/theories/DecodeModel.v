(** Reading real sprites back: grf/decompile.py:117-141, 1115-1262 and the
    sprite sheet of save_graphic_resources (1327-1391).

    Pixels are byte lists of length bpp, an image is a list of rows of
    pixels.  A Python exception is [None].  The byte stream read through the
    file object is the remaining suffix of the file. *)
From Coq Require Import ZArith List Bool.
From Verif Require Import Base.
Import ListNotations.
Open Scope Z_scope.

(** Python slicing l[i:j] with integer bounds (CPython PySlice_AdjustIndices,
    step 1): negative bounds count from the end, then both are clamped. *)
Definition py_index (n i : Z) : Z :=
  if i <? 0 then Z.max 0 (i + n) else Z.min i n.
Definition py_slice {A} (l : list A) (i j : Z) : list A :=
  let i := py_index (len l) i in
  let j := py_index (len l) j in
  firstn (Z.to_nat (j - i)) (skipn (Z.to_nat i) l).
(** l[i:]. *)
Definition py_slice_from {A} (l : list A) (i : Z) : list A :=
  skipn (Z.to_nat (py_index (len l) i)) l.

(** The fields of RealGraphicsSprite (decompile.py:1187-1208) the decoder
    uses; bpp is 1200-1207 _set_bpp. *)
Record gsprite := mk_gsprite {
  g_decomp : Z; g_width : Z; g_height : Z; g_type : Z;
  g_zoom : Z; g_xofs : Z; g_yofs : Z }.

(** decompile.py:1200-1207 _set_bpp. *)
Definition g_bpp (s : gsprite) : Z :=
  (if Z.land (g_type s) 1 =? 0 then 0 else 3)
  + (if Z.land (g_type s) 2 =? 0 then 0 else 1)
  + (if Z.land (g_type s) 4 =? 0 then 0 else 1).

(** decompile.py:1146-1168: the decompression loop of decode_sprite.  [num]
    is the number of bytes still expected, [data] what was produced.  Every
    round reads at least one byte, so [fuel] = number of unread bytes + 1 is
    never exhausted (DecodeProofs.decode_loop_fuel). *)
Fixpoint decode_loop (fuel : nat) (num : Z) (data f : bytes) : option (bytes * bytes) :=
  match fuel with
  | O => None
  | S fuel =>
    if negb (0 <? num) then
      (if num =? 0 then Some (data, f) else None)          (* 1168 *)
    else
      do (b, f) <- rd_B f;                                   (* 1150 *)
      let code := if 128 <=? b then b - 256 else b in        (* 1151 *)
      if 0 <=? code then
        let size := if code =? 0 then 128 else code in       (* 1153 *)
        let num := num - size in
        if num <? 0 then None else                           (* 1155 *)
        let '(l, f) := slice (Z.to_nat size) f in            (* 1156 *)
        decode_loop fuel num (data ++ l) f
      else
        do (b2, f) <- rd_B f;
        let data_offset := Z.lor (Z.shiftl (Z.land code 7) 8) b2 in   (* 1158 *)
        let size := - (Z.shiftr code 3) in                   (* 1160 *)
        let num := num - size in
        if num <? 0 then None else                           (* 1162 *)
        if size =? data_offset then
          decode_loop fuel num (data ++ py_slice_from data (- size)) f       (* 1164 *)
        else
          decode_loop fuel num (data ++ py_slice data (- data_offset) (size - data_offset)) f
  end.

Definition decode_data (decomp : Z) (f : bytes) : option (bytes * bytes) :=
  decode_loop (S (length f)) decomp [] f.

(** ndarray reshape of [n] items into rows of [k]. *)
Fixpoint chop {A} (n k : nat) (l : list A) : list (list A) :=
  match n with
  | O => []
  | S n => firstn k l :: chop n k (skipn k l)
  end.

Definition pixel := list Z.
Definition image := list (list pixel).

(** data[ofs] for a non-negative index. *)
Definition at_ (d : bytes) (ofs : Z) : option Z :=
  if ofs <? 0 then None else nth_error d (Z.to_nat ofs).

(** np.frombuffer(data, offset=ofs, count=n): raises when the offset is past
    the end or fewer than n bytes are left. *)
Definition frombuffer (d : bytes) (ofs n : Z) : option bytes :=
  if (len d <? ofs) || (len d - ofs <? n) then None
  else Some (firstn (Z.to_nat n) (skipn (Z.to_nat ofs) d)).

(** decompile.py:1140  a[y, skip:skip+length, :] = b  on row [row]: numpy
    requires the clipped target to have as many pixels as [b], except that a
    single pixel broadcasts (also into an empty target). *)
Definition assign_run (row : list pixel) (skip : Z) (b : list pixel) : option (list pixel) :=
  let w := len row in
  let lo := Z.min skip w in
  let hi := Z.min (skip + len b) w in
  if hi - lo =? len b then
    Some (firstn (Z.to_nat lo) row ++ b ++ skipn (Z.to_nat hi) row)
  else if len b =? 1 then Some row        (* hi = lo here *)
  else None.

(** decompile.py:1126-1141: the chunk loop of one row.  Each round moves
    [ofs] forward by at least 2 and reading past the end raises, so fuel
    len(data)+1 is never exhausted (DecodeProofs.row_loop_fuel). *)
Fixpoint row_loop (fuel : nat) (container width bpp : Z) (data : bytes) (ofs : Z)
  (row : list pixel) : option (list pixel) :=
  match fuel with
  | O => None
  | S fuel =>
    do (is_final, length, skip, ofs) <-
      (if (2 <=? container) && (256 <? width) then
         do b1 <- at_ data (ofs + 1); do b0 <- at_ data ofs;
         do b3 <- at_ data (ofs + 3); do b2 <- at_ data (ofs + 2);
         Some (negb (Z.land b1 128 =? 0),
               Z.lor (Z.shiftl (Z.land b1 127) 8) b0,
               Z.lor (Z.shiftl b3 8) b2, ofs + 4)
       else
         do b0 <- at_ data ofs; do b1 <- at_ data (ofs + 1);
         Some (negb (Z.land b0 128 =? 0), Z.land b0 127, b1, ofs + 2));
    let byte_length := length * bpp in
    do b <- frombuffer data ofs byte_length;
    do row <- assign_run row skip (chop (Z.to_nat length) (Z.to_nat bpp) b);
    if is_final then Some row
    else row_loop fuel container width bpp data (ofs + byte_length) row
  end.

(** All rows of the enumerate loop 1125. *)
Fixpoint rows_loop (container width bpp : Z) (data : bytes) (offsets : list Z)
  : option image :=
  match offsets with
  | [] => Some []
  | ofs :: r =>
    do row <- row_loop (S (length data)) container width bpp data ofs
                (repeat (repeat 0 (Z.to_nat bpp)) (Z.to_nat width));
    do rest <- rows_loop container width bpp data r;
    Some (row :: rest)
  end.

(** decompile.py:1117-1143 decode_chunked. *)
Definition decode_chunked (s : gsprite) (container : Z) (data : bytes) : option image :=
  let wide := (2 <=? container) && (65535 <? g_decomp s) in
  do (offsets, _) <- rd_n (if wide then rd_I else rd_H) (Z.to_nat (g_height s)) data;
  rows_loop container (g_width s) (g_bpp s) data offsets.

(** decompile.py:1146-1177 decode_sprite: image and position after it (the
    hash is left out). *)
Definition decode_sprite (s : gsprite) (container : Z) (f : bytes) : option (image * bytes) :=
  do (data, f) <- decode_data (g_decomp s) f;
  if negb (Z.land (g_type s) 8 =? 0) then
    do a <- decode_chunked s container data; Some (a, f)
  else if len data =? g_width s * g_height s * g_bpp s then
    Some (chop (Z.to_nat (g_height s)) (Z.to_nat (g_width s))
            (chop (Z.to_nat (g_height s * g_width s)) (Z.to_nat (g_bpp s)) data), f)
  else None.

(** What read_real_sprite yields: decompile.py:1187-1218. *)
Inductive real_sprite :=
| RGraphics (id : Z) (pos : bytes) (s : gsprite)   (* pos: file from s.offset *)
| RSound (id : Z) (pos : bytes) (size : Z) (name : bytes)
| RUnknown.

(** ParsingContext.GRAPHICS / SOUND / DEFAULT as answered by
    get_sprite_data; anything else is KOther. *)
Inductive skind := KGraphics | KSound | KDefault | KOther.

(** decompile.py:1226-1262 read_real_sprite.  [kind] is
    context.get_sprite_data; the result's second component is the file after
    f.seek(start_pos + num - 1).  Simplification: [num] = 0 would seek
    backwards by one byte; modelled as an error.  The name is kept as
    bytes (decode() would raise on invalid UTF-8). *)
Definition read_real_sprite (kind : Z -> skind) (f : bytes)
  : option (option (real_sprite * bytes)) :=
  do (id, f) <- rd_I f;
  if id =? 0 then Some None else
  do (num, f) <- rd_I f;
  do (t, start) <- rd_B f;
  if num <? 1 then None else
  let after := skipn (Z.to_nat (num - 1)) start in
  match kind id with
  | KGraphics | KDefault =>
    do (zoom, f) <- rd_B start;
    do (height, f) <- rd_H f;
    do (width, f) <- rd_H f;
    do (xofs, f) <- rd_h f;
    do (yofs, f) <- rd_h f;
    let s := mk_gsprite 0 width height t zoom xofs yofs in
    do (decomp, f) <- (if negb (Z.land t 8 =? 0) then rd_I f
                       else Some (width * height * g_bpp s, f));
    Some (Some (RGraphics id f (mk_gsprite decomp width height t zoom xofs yofs), after))
  | KSound =>
    let '(h, f) := slice 2 start in
    do l <- at_ h 1;
    let '(name, f) := slice (Z.to_nat (l + 1)) f in
    Some (Some (RSound id f (num - 3 - l) (py_slice name 0 (-1)), after))
  | KOther => Some (Some (RUnknown, after))
  end.

(** ---- resource names ---- *)

Fixpoint bytes_eq (a b : bytes) : bool :=
  match a, b with
  | [], [] => true
  | x :: a, y :: b => (x =? y) && bytes_eq a b
  | _, _ => false
  end.
Definition mem_name (n : bytes) (index : list bytes) : bool := existsb (bytes_eq n) index.

(** str(i) for i >= 0. *)
Fixpoint dec_digits (fuel : nat) (n : Z) : bytes :=
  match fuel with
  | O => []
  | S fuel => if n <? 10 then [48 + n] else dec_digits fuel (n / 10) ++ [48 + n mod 10]
  end.
Definition str_nat (n : Z) : bytes := dec_digits (S (Z.to_nat n)) n.

(** decompile.py:119-122: the i-th candidate; '.' is 46, '_' is 95. *)
Definition candidate (name ext : bytes) (i : Z) : bytes :=
  if i =? 0 then name ++ 46 :: ext
  else name ++ 95 :: str_nat (i + 1) ++ 46 :: ext.

(** decompile.py:118-128, the loop from i on with n tries left. *)
Fixpoint find_unique_loop (index : list bytes) (name ext : bytes) (n : nat) (i : Z)
  : option (bytes * list bytes) :=
  match n with
  | O => None
  | S n =>
    let unique := candidate name ext i in
    if mem_name unique index then find_unique_loop index name ext n (i + 1)
    else Some (unique, unique :: index)
  end.

(** decompile.py:117-128 find_unique_resource_name: the name and the index
    with it added; RuntimeError is [None]. *)
Definition find_unique (index : list bytes) (name ext : bytes) (tries : nat)
  : option (bytes * list bytes) := find_unique_loop index name ext tries 0.

Definition is_upper (c : Z) : bool := (65 <=? c) && (c <=? 90).
Definition is_lower (c : Z) : bool := (97 <=? c) && (c <=? 122).
Definition is_digit (c : Z) : bool := (48 <=? c) && (c <=? 57).
(** \w and \s of Python's re on ASCII text (str patterns: \s is
    str.isspace, which includes 0x1c..0x1f). *)
Definition is_word (c : Z) : bool := is_upper c || is_lower c || is_digit c || (c =? 95).
Definition is_space (c : Z) : bool := (c =? 32) || ((9 <=? c) && (c <=? 13)) || ((28 <=? c) && (c <=? 31)).
Definition lower (c : Z) : Z := if is_upper c then c + 32 else c.
Definition is_dash (c : Z) : bool := (c =? 45) || is_space c.

(** re.sub(r'[-\s]+', '-', s): [dash] tells that the previous character was
    in the run being replaced. *)
Fixpoint squash (dash : bool) (s : bytes) : bytes :=
  match s with
  | [] => []
  | c :: r => if is_dash c then (if dash then squash true r else 45 :: squash true r)
              else c :: squash false r
  end.
(** s.strip('-_'). *)
Definition is_strip (c : Z) : bool := (c =? 45) || (c =? 95).
Fixpoint lstrip (s : bytes) : bytes :=
  match s with
  | c :: r => if is_strip c then lstrip r else s
  | [] => []
  end.
Definition strip (s : bytes) : bytes := rev (lstrip (rev (lstrip s))).

(** name.endswith('.' + ext) and name[:-len(ext) - 1]. *)
Definition ends_with (name suf : bytes) : bool :=
  (length suf <=? length name)%nat
  && bytes_eq (skipn (length name - length suf) name) suf.
Definition cut_extension (name ext : bytes) : bytes :=
  if ends_with name (46 :: ext) then py_slice name 0 (- len ext - 1) else name.

(** decompile.py:137-139, on the ASCII text unicodedata.normalize('NFKD',
    name).encode('ascii', 'ignore') leaves. *)
Definition sanitise (s : bytes) : bytes :=
  strip (squash false (filter (fun c => is_word c || is_space c || (c =? 45)) (map lower s))).

(** decompile.py:131-141 gen_resource_name; [ascii] stands for 137
    (unicodedata is not modelled). *)
Definition gen_resource_name (ascii : bytes -> bytes) (index : list bytes)
  (name ext : bytes) (tries : nat) : option (bytes * list bytes) :=
  find_unique index (sanitise (ascii (cut_extension name ext))) ext tries.

(** The names save_sound_resources (1455-1464) hands out, one per sound, all
    with the same index set. *)
Fixpoint sound_names (ascii : bytes -> bytes) (index : list bytes) (names : list bytes) (ext : bytes)
  : option (list bytes) :=
  match names with
  | [] => Some []
  | n :: r =>
    do (u, index) <- gen_resource_name ascii index n ext 100;
    do rest <- sound_names ascii index r ext;
    Some (u :: rest)
  end.

(** ---- sprite sheets: decompile.py:1327-1391 ---- *)

Definition PADDING : Z := 5.
Definition sheet_N : nat := 8%nat.

Definition sumz (l : list Z) : Z := fold_right Z.add 0 l.
Definition maxz (l : list Z) : Z := fold_right Z.max 0 l.

(** 1350-1357: sheet size and the line offsets.  sprites are (width, height)
    in order; range(0, len, N) chunks are taken with [fuel]. *)
Fixpoint sheet_lines (fuel : nat) (w h : Z) (sprites : list (Z * Z))
  : Z * Z * list Z :=
  match fuel, sprites with
  | S fuel, _ :: _ =>
    let row := firstn sheet_N sprites in
    let lw := sumz (map fst row) + PADDING * 2 * Z.of_nat sheet_N in
    let lh := PADDING * 2 + maxz (map snd row) in
    let '(w', h', ofs) := sheet_lines fuel (Z.max w lw) (h + lh) (skipn sheet_N sprites) in
    (w', h', h :: ofs)
  | _, _ => (w, h, [])
  end.

Definition sheet_size (sprites : list (Z * Z)) : Z * Z * list Z :=
  sheet_lines (length sprites) 0 0 sprites.

(** 1368-1414: where each sprite is pasted; [skip i] tells that sprite [i] is
    left out (type & 3 == 2, 1373-1375).  Result: one (index, x, y) per
    pasted sprite. *)
Fixpoint sheet_place (line_ofs : list Z) (skipped : nat -> bool) (i : nat) (xofs : Z)
  (sprites : list (Z * Z)) : list (nat * (Z * Z)) :=
  match sprites with
  | [] => []
  | (sw, _) :: r =>
    let yofs := PADDING + nth (i / sheet_N) line_ofs 0 in
    let xofs := if Nat.eqb (Nat.modulo i sheet_N) 0 then PADDING else xofs in
    if skipped i then sheet_place line_ofs skipped (S i) xofs r
    else (i, (xofs, yofs)) :: sheet_place line_ofs skipped (S i) (xofs + sw + 2 * PADDING) r
  end.

Definition sheet_layout (skipped : nat -> bool) (sprites : list (Z * Z)) : list (nat * (Z * Z)) :=
  sheet_place (snd (sheet_size sprites)) skipped 0 0 sprites.
