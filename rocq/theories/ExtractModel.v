(** The image files and sprite statements the decompiler makes from the real
    sprites of a file: grf/decompile.py:1327-1438 save_graphic_resources and
    its input 1492-1507.  Definitions only.

    Simplifications: an image is its size and a function from coordinates to
    pixels (a palette index, or red, green, blue, alpha); coordinates outside
    the image are never looked at.  The PNG files are lossless.  What numpy
    and Pillow do with arrays without a single byte is not modelled.  [h1] and
    [h2] stand for Python's hash of bytes and of triples of integers; the
    theorems hold for all functions.  Sounds and recolour sprites of the same
    id as a graphics sprite (they replace the statement, 1541, 1550) are left
    out; so are the statistics of duplicates (1440-1450). *)
From Coq Require Import ZArith List Bool String.
From Verif Require Import Base RecordsModel DecodeModel AnnounceModel PyValue.
Import ListNotations.
Open Scope string_scope.
Open Scope list_scope.
Open Scope Z_scope.

(** 1186-1196 RealGraphicsSprite: id, the file from its offset on, the rest. *)
Record gfx := mk_gfx { f_id : Z; f_pos : bytes; f_s : gsprite }.
(** A real sprite of the file: graphics, or something else with this id. *)
Inductive real := RG (s : gfx) | ROther (id : Z).
Definition real_id (r : real) : Z := match r with RG s => f_id s | ROther i => i end.

(** defaultdict(list): d[k].append(v) *)
Definition dict_append {K V} (eqb : K -> K -> bool) (d : list (K * list V)) (k : K) (v : V) : list (K * list V) :=
  dict_set eqb d k ((match dict_get eqb d k with Some l => l | None => [] end) ++ [v]).
(** 1490, 1496, 1504 *)
Definition real_sprites (l : list real) : list (Z * list real) :=
  fold_left (fun d r => dict_append Z.eqb d (real_id r) r) l [].
(** 1329-1332 the sprites in the order of the loops *)
Definition graphics (l : list real) : list gfx := flat_map (fun r => match r with RG s => [s] | ROther _ => [] end) l.
Definition in_order (d : list (Z * list real)) : list gfx := flat_map (fun e => graphics (snd e)) d.
(** 1328-1337 by_group *)
Definition by_group (c : ctx) (l : list gfx) : list (bytes * list gfx) :=
  fold_left (fun g s => dict_append bytes_eq g (group_of c (f_id s)) s) l [].

(** ** Images *)
Definition canvas (A : Type) : Type := Z -> Z -> A.
(** Image.paste at (x, y) of an image of size (w, h) *)
Definition paste {A} (c : canvas A) (x y w h : Z) (p : canvas A) : canvas A :=
  fun u v => if (x <=? u) && (u <? x + w) && (y <=? v) && (v <? y + h) then p (u - x) (v - y) else c u v.
(** ImageDraw.rectangle((x0, y0, x1, y1), outline=ink): a frame one pixel wide *)
Definition rectangle {A} (c : canvas A) (x0 y0 x1 y1 : Z) (ink : A) : canvas A :=
  fun u v => if (x0 <=? u) && (u <=? x1) && (y0 <=? v) && (v <=? y1) &&
                ((u =? x0) || (u =? x1) || (v =? y0) || (v =? y1)) then ink else c u v.
(** A saved image file. *)
Inductive file := FMask (w h : Z) (c : canvas Z) | FColour (w h : Z) (c : canvas (list Z)).

(** a[y, x] of the decoded array *)
Definition pixel_at (img : image) (x y : Z) : list Z := nth (Z.to_nat x) (nth (Z.to_nat y) img []) [].

(** 1339-1342 and the two images of the group *)
Record paint := mk_paint {
  p_hashes : list Z; p_count : list (Z * Z); p_size : list (Z * Z);
  p_mask : canvas Z; p_colour : canvas (list Z) }.
(** 1372 *)
Definition alpha_only (s : gfx) : bool := Z.land (g_type (f_s s)) 3 =? 2.
(** 1376-1416: one sprite at (x, y). *)
Definition paint_sprite (h1 : bytes -> Z) (h2 : Z -> Z -> Z -> Z) (container : Z) (s : gfx) (x y : Z) (p : paint) : option paint :=
  let g := f_s s in
  do (data, _) <- decode_data (g_decomp g) (f_pos s);
  do (img, rest) <- decode_sprite g container (f_pos s);
  let h := h1 data in
  let seen := existsb (Z.eqb h) (p_hashes p) in
  let k := h2 h (g_xofs g) (g_yofs g) in
  let size := len (f_pos s) - len rest + 18 in                                                    (* 1385 *)
  do! ((match dict_get Z.eqb (p_size p) k with Some n => n | None => size end) =? size);          (* 1386 *)
  let n := (match dict_get Z.eqb (p_count p) k with Some n => n | None => 0 end) + 1 in
  let dup := if 1 <? n then 2%nat else if seen then 1%nat else 0%nat in
  let masked := 0 <? Z.land (g_type g) 4 in
  let frame {A} (c : canvas A) (inks : list A) (ink : A) :=
    match dup with O => c | _ => rectangle c (x - 2) (y - 2) (x + g_width g + 1) (y + g_height g + 1) (nth dup inks ink) end in
  let mask := if masked
              then paste (frame (p_mask p) [0; 0xBE; 0xB8] 0) x y (g_width g) (g_height g) (fun u v => last (pixel_at img u v) 0)
              else p_mask p in
  let bpp := if masked then g_bpp g - 1 else g_bpp g in
  let colour := if 3 <=? bpp then frame (p_colour p) [[0; 0; 0; 0]; [255; 255; 0; 255]; [255; 0; 0; 255]] [] else p_colour p in
  let colour := if bpp =? 3 then paste colour x y (g_width g) (g_height g) (fun u v => firstn 3 (pixel_at img u v) ++ [255])
                else if bpp =? 4 then paste colour x y (g_width g) (g_height g) (fun u v => firstn 4 (pixel_at img u v))
                else colour in
  Some (mk_paint (if seen then p_hashes p else p_hashes p ++ [h]) (dict_set Z.eqb (p_count p) k n)
          (dict_set Z.eqb (p_size p) k size) mask colour).
(** 1366-1420: the sprites of a group that are pasted, with their places. *)
Fixpoint paint_all (h1 : bytes -> Z) (h2 : Z -> Z -> Z -> Z) (container : Z) (members : list gfx) (places : list (nat * (Z * Z))) (p : paint)
  : option (list (gfx * Z * Z) * paint) :=
  match places with
  | [] => Some ([], p)
  | (i, (x, y)) :: r =>
      do s <- nth_error members i;
      do p <- paint_sprite h1 h2 container s x y p;
      do (l, p) <- paint_all h1 h2 container members r p;
      Some ((s, x, y) :: l, p)
  end.

Definition size_of (s : gfx) : Z * Z := (g_width (f_s s), g_height (f_s s)).
Definition places_of (members : list gfx) : list (nat * (Z * Z)) :=
  sheet_layout (fun i => match nth_error members i with Some s => alpha_only s | None => false end) (map size_of members).
Definition RESOURCES : bytes := txt "resources/".
(** 1343-1434: one group; files written and entries of by_id. *)
Definition entry : Type := gfx * Z * Z * option bytes * option bytes.
Definition extract_group (h1 : bytes -> Z) (h2 : Z -> Z -> Z -> Z) (container : Z) (group : bytes) (members : list gfx) (p : paint)
  : option (list (bytes * file) * list entry * paint) :=
  let '(w, h, _) := sheet_size (map size_of members) in
  let colours := existsb (fun s => 0 <? Z.land (g_type (f_s s)) 3) members in
  let masks := existsb (fun s => 0 <? Z.land (g_type (f_s s)) 4) members in
  let p := mk_paint (p_hashes p) (p_count p) (p_size p) (fun _ _ => 255) (fun _ _ => [0; 0; 0; 0]) in
  do (l, p) <- paint_all h1 h2 container members (places_of members) p;
  let mpath := if masks then Some (RESOURCES ++ mask_file group) else None in
  let cpath := if colours then Some (RESOURCES ++ rgba_file group) else None in
  Some ((match mpath with Some f => [(f, FMask w h (p_mask p))] | None => [] end) ++
        (match cpath with Some f => [(f, FColour w h (p_colour p))] | None => [] end),
        map (fun e => (e, mpath, cpath)) l, p).
Fixpoint extract_groups (h1 : bytes -> Z) (h2 : Z -> Z -> Z -> Z) (container : Z) (gs : list (bytes * list gfx)) (p : paint)
  : option (list (bytes * file) * list entry) :=
  match gs with
  | [] => Some ([], [])
  | (g, members) :: r =>
      do (fs, es, p) <- extract_group h1 h2 container g members p;
      do (fs', es') <- extract_groups h1 h2 container r p;
      Some (fs ++ fs', es ++ es')
  end.
Definition entry_id (e : entry) : Z := f_id (fst (fst (fst (fst e)))).
(** 1327-1438: the files in the order they are written, and out_sprites. *)
Definition extract (h1 : bytes -> Z) (h2 : Z -> Z -> Z -> Z) (container : Z) (c : ctx) (l : list real)
  : option (list (bytes * file) * list (Z * list entry)) :=
  do (fs, es) <- extract_groups h1 h2 container (by_group c (in_order (real_sprites l)))
                   (mk_paint [] [] [] (fun _ _ => 0) (fun _ _ => []));
  Some (fs, fold_left (fun d e => dict_append Z.eqb d (entry_id e) e) es []).
