(** Model of grf/vox.py: the MagicaVoxel reader, the isometric renderer of
    house sprites (VoxFile) and the side views of train sprites
    (VoxTrainFile.DiagView, up to the RGBA array that is handed to PIL).

    Not modelled: PreciseView (PIL polygon rasteriser), Image.resize, and the
    oklab colour arithmetic, whose two results (nearest safe colour of an RGB
    triple, shaded version of a palette colour) are parameters. *)
From Verif Require Import Base.
From Coq Require Import ZArith List Bool Lia.
Import ListNotations.
Open Scope Z_scope.

(** ** The reader, vox.py:19-66 *)

(** A row of reader.voxels: x, y, z, colour index. *)
Record vox := mk_vox { vx : Z; vy : Z; vz : Z; vi : Z }.

(** vox.py:20-24 __init__: size None, voxels [], no palette yet.
    [r_rgba] is vox_palette restricted to rows 1..255 (row 0 is zero). *)
Record reader := mk_reader {
  r_size : option (Z * Z * Z);
  r_voxels : list vox;
  r_rgba : option (list (Z * Z * Z * Z)) }.

Definition reader0 : reader := mk_reader None [] None.

(** vox.py:26-28 _read_size: struct.unpack('<III', f.read(12)); the first two
    are stored swapped.  Reads from the file, not from the chunk. *)
Definition read_size (d : bytes) (r : reader) : option reader :=
  do (s0, d) <- rd_I d; do (s1, d) <- rd_I d; do (s2, _) <- rd_I d;
  Some (mk_reader (Some (s1, s0, s2)) (r_voxels r) (r_rgba r)).

(** np.fromfile(count=n*4) followed by voxels.shape = (n, 4): raises when the
    file ends early. *)
Fixpoint read_quads (n : nat) (d : bytes) : option (list (Z * Z * Z * Z)) :=
  match n with
  | O => Some []
  | S n =>
      match d with
      | a :: b :: c :: e :: d => do l <- read_quads n d; Some ((a, b, c, e) :: l)
      | _ => None
      end
  end.

(** vox.py:30-39 _read_xyzi.  voxels[:, 1] = size[1] - voxels[:, 1] is stored
    in a uint8 array, hence modulo 256 (with numpy 2 a size above 255 raises
    instead); then size[0] is added to column 0 in a wider type.  self.size
    None raises.  The assertion is on every index. *)
Definition place (s0 s1 : Z) (q : Z * Z * Z * Z) : vox :=
  let '(x, y, z, i) := q in mk_vox (s0 + x) ((s1 - y) mod 256) z i.

Definition read_xyzi (d : bytes) (r : reader) : option reader :=
  do (n, d) <- rd_I d;
  do q <- read_quads (Z.to_nat n) d;
  do (s0, s1, _) <- r_size r;
  let v := map (place s0 s1) q in
  do! forallb (fun v => 0 <? vi v) v;
  Some (mk_reader (r_size r) v (r_rgba r)).

(** vox.py:41-48 _read_rgba: 255 colours, the last four bytes are ignored. *)
Definition read_rgba (d : bytes) (r : reader) : option reader :=
  do q <- read_quads 255 d;
  Some (mk_reader (r_size r) (r_voxels r) (Some q)).

Definition id_XYZI : bytes := [88; 89; 90; 73].
Definition id_SIZE : bytes := [83; 73; 90; 69].
Definition id_RGBA : bytes := [82; 71; 66; 65].

Fixpoint beq (a b : bytes) : bool :=
  match a, b with
  | [], [] => true
  | x :: a, y :: b => (x =? y) && beq a b
  | _, _ => false
  end.

(** vox.py:54-66 the chunk loop.  A truncated chunk id is followed by a
    failing struct.unpack; seeking past the end makes the next read return
    b'' and ends the loop.  [fuel] only bounds the number of chunks. *)
Fixpoint read_chunks (fuel : nat) (d : bytes) (r : reader) : option reader :=
  match fuel with
  | O => None
  | S fuel =>
      match d with
      | [] => Some r
      | c0 :: c1 :: c2 :: c3 :: d =>
          let id := [c0; c1; c2; c3] in
          do (n, d) <- rd_I d; do (_, d) <- rd_I d;
          do r <- (if beq id id_XYZI then read_xyzi d r else Some r);
          do r <- (if beq id id_SIZE then read_size d r
                   else if beq id id_RGBA then read_rgba d r else Some r);
          read_chunks fuel (skipn (Z.to_nat n) d) r
      | _ => None
      end
  end.

(** vox.py:50-53 read: eight bytes are skipped unread.  Reading may be
    repeated on the same reader object (VoxFile shares one), so the previous
    contents are an argument. *)
Definition vox_read (file : bytes) (r : reader) : option reader :=
  read_chunks (S (length file)) (skipn 8 file) r.

(** ** The painter, vox.py:97-119 and 277-301 *)

(** One pixel: the depth written last ([None] is -1e100) and the value. *)
Definition cell : Type := option Z * Z.
Definition canvas := Z -> Z -> cell.           (* row, column *)

Definition blank : canvas := fun _ _ => (None, 0).

Definition put (st : canvas) (y x : Z) (c : cell) : canvas :=
  fun y' x' => if (y' =? y) && (x' =? x) then c else st y' x'.

(** numpy index: negative values count from the end, others raise. *)
Definition np_ix (n i : Z) : option Z :=
  if (0 <=? i) && (i <? n) then Some i
  else if (- n <=? i) && (i <? 0) then Some (i + n) else None.

(** vox.py:104-108 (and 290-294) set_pixel. *)
Definition set_pixel (h w x y z c : Z) (st : canvas) : option canvas :=
  do y <- np_ix h y; do x <- np_ix w x;
  let old := fst (st y x) in
  if match old with None => false | Some o => z <=? o end then Some st
  else Some (put st y x (Some z, c)).

(** A projected voxel: column, row, depth, colour. *)
Record spot := mk_spot { sx : Z; sy : Z; sz : Z; sc : Z }.

(** The pixels one voxel paints: column and row offset, side bits. *)
Definition stencil := list (Z * Z * Z).

(** vox.py:10-13 *)
Definition SIDE_ZL := 0.
Definition SIDE_ZR := 256.
Definition SIDE_X := 512.
Definition SIDE_Y := 768.

(** vox.py:114-119 *)
Definition house_stencil : stencil :=
  [(0, 0, SIDE_ZL); (1, 0, SIDE_ZR); (0, 1, SIDE_X); (1, 1, SIDE_Y); (0, 2, SIDE_X); (1, 2, SIDE_Y)].
(** vox.py:299-301 (VOX_SIDE_Z = 0, VOX_SIDE_XY = 0x100). *)
Definition diag_stencil : stencil := [(0, 0, 0); (0, 1, 256); (0, 2, 256)].

Fixpoint paint_spot (h w : Z) (l : stencil) (s : spot) (st : canvas) : option canvas :=
  match l with
  | [] => Some st
  | (dx, dy, side) :: l =>
      do st <- set_pixel h w (sx s + dx) (sy s + dy) (sz s) (Z.lor (sc s) side) st;
      paint_spot h w l s st
  end.

Fixpoint paint_all (h w : Z) (t : stencil) (l : list spot) (st : canvas) : option canvas :=
  match l with
  | [] => Some st
  | s :: l => do st <- paint_spot h w t s st; paint_all h w t l st
  end.

(** np.amin / np.amax: raise on an empty array. *)
Definition amin (l : list Z) : option Z :=
  match l with [] => None | a :: l => Some (fold_left Z.min l a) end.
Definition amax (l : list Z) : option Z :=
  match l with [] => None | a :: l => Some (fold_left Z.max l a) end.

Record picture := mk_picture { p_h : Z; p_w : Z; p_px : Z -> Z -> Z }.

(** ** VoxFile, vox.py:69-206 *)

(** colour.py:16 SAFE_COLOURS. *)
Definition safe_colours : list Z := map Z.of_nat (seq 1 214) ++ [255].

(** The colour arithmetic: [k_best] is oklab_find_best_colour of an RGB
    triple (colour.py:149-152), [k_z], [k_x], [k_y] are the colour functions,
    given as the nearest safe colour of the function applied to a palette
    colour (sprites.py:243-248); None is a function that is None. [k_depth]
    orders the voxels by the floating point product with cam_norm. *)
Record vlib := mk_vlib {
  k_best : Z * Z * Z -> Z;
  k_z : option (Z -> Z); k_x : option (Z -> Z); k_y : option (Z -> Z);
  k_depth : vox -> Z }.

(** reader.ttd_palette[i], vox.py:41-48: entry 0 comes from black; a reader
    without RGBA chunk has no such attribute. *)
Definition ttd_palette (k : vlib) (r : reader) (i : Z) : option Z :=
  do q <- r_rgba r;
  do (a, b, c, _) <- nth_error ((0, 0, 0, 0) :: q) (Z.to_nat i);
  Some (k_best k (a, b, c)).

(** np.take(ttd_palette, voxels[:, 3]) raises outside the table. *)
Fixpoint colours_of (k : vlib) (r : reader) (l : list vox) : option (list (vox * Z)) :=
  match l with
  | [] => Some []
  | v :: l => do c <- ttd_palette k r (vi v); do m <- colours_of k r l; Some ((v, c) :: m)
  end.

(** vox.py:93-95: voxels @ (1,-1,0,0), voxels @ (1,1,-2,0), depth. *)
Definition col_of (v : vox) : Z := vx v - vy v.
Definition row_of (v : vox) : Z := vx v + vy v - 2 * vz v.

(** vox.py:90-121 _load up to self.data; colour 1 is skipped at 111. *)
Definition house_spots (k : vlib) (xmin ymin : Z) (l : list (vox * Z)) : list spot :=
  map (fun p => mk_spot (col_of (fst p) - xmin) (row_of (fst p) - ymin) (k_depth k (fst p)) (snd p))
    (filter (fun p => negb (snd p =? 1)) l).

Definition house_load (k : vlib) (r : reader) : option picture :=
  do cc <- colours_of k r (r_voxels r);
  let xx := map col_of (r_voxels r) in
  let yy := map row_of (r_voxels r) in
  do xmin <- amin xx; do xmax <- amax xx; do ymin <- amin yy; do ymax <- amax yy;
  let w := xmax - xmin + 2 in
  let h := ymax - ymin + 3 in
  do st <- paint_all h w house_stencil (house_spots k xmin ymin cc) blank;
  Some (mk_picture h w (fun y x => snd (st y x))).

(** vox.py:123-126 make_remap and sprites.py:243-248: arange(256) with the
    safe colours replaced. *)
Definition make_remap (f : option (Z -> Z)) (c : Z) : Z :=
  match f with
  | None => c
  | Some f => if existsb (Z.eqb c) safe_colours then f c else c
  end.

(** vox.py:128-131: the four remaps concatenated, indexed by a pixel value. *)
Definition house_palette (k : vlib) (v : Z) : Z :=
  let f := match v / 256 with 0 => k_z k | 1 => k_z k | 2 => k_x k | _ => k_y k end in
  make_remap f (v mod 256).

(** vox.py:143-156 SIDE_PIXELS. *)
Definition side_pixels (side : Z) : list (Z * Z) :=
  match side with
  | 0 => [(2, 0); (3, 0); (0, 1); (1, 1); (2, 1); (3, 1); (2, 2); (3, 2)]
  | 1 => [(0, 0); (1, 0); (0, 1); (1, 1); (2, 1); (3, 1); (0, 2); (1, 2)]
  | 2 => [(0, 0); (1, 0); (0, 1); (1, 1); (2, 1); (3, 1); (2, 2); (3, 2)]
  | _ => [(2, 0); (3, 0); (0, 1); (1, 1); (2, 1); (3, 1); (0, 2); (1, 2)]
  end.

(** v & VOX_SIDE_BOTTOM, v & VOX_SIDE_RIGHT as truth values. *)
Definition bottom (v : Z) : bool := Z.testbit v 9.
Definition right (v : Z) : bool := Z.testbit v 8.

(** vox.py:184-197: the pattern used for pixel (y, x). *)
Definition side_of (p : picture) (y x : Z) : Z :=
  let v := p_px p y x in
  let side := Z.shiftr v 8 in
  if bottom v then
    let below := p_px p (y + 1) x in
    let above := p_px p (y - 1) x in
    let side := if (y + 1 <? p_h p) && negb (below =? 0) && negb (bottom below)
                   && Bool.eqb (right below) (right v)
                then Z.lxor side 3 else side in
    if (0 <? y) && negb (above =? 0) && bottom above && negb (Bool.eqb (right above) (right v))
    then Z.lxor side 2 else side
  else side.

Definition set_px (px : Z -> Z -> Z) (y x c : Z) : Z -> Z -> Z :=
  fun y' x' => if (y' =? y) && (x' =? x) then c else px y' x'.

(** vox.py:178-200, one pixel of the source. *)
Definition blow_px (k : vlib) (p : picture) (y x : Z) (out : Z -> Z -> Z) : Z -> Z -> Z :=
  fold_left (fun out o => set_px out (2 * y + snd o) (4 * x + fst o) (house_palette k (p_px p y x)))
    (side_pixels (side_of p y x)) out.

Definition zrange (n : Z) : list Z := map Z.of_nat (seq 0 (Z.to_nat n)).

(** vox.py:176-177 the two loops over zeros. *)
Definition blow_up (k : vlib) (p : picture) : Z -> Z -> Z :=
  fold_left (fun out y => fold_left (fun out x => blow_px k p y x out) (zrange (p_w p)) out)
    (zrange (p_h p)) (fun _ _ => 0).

(** common.py:5 *)
Definition ZOOM_NORMAL := 0.
Definition ZOOM_4X := 1.
Definition ZOOM_2X := 2.

(** vox.py:133-202 make_house_sprite, up to the numpy array handed to PIL:
    every second row; every column twice; the blow-up; anything else raises. *)
Definition house_sprite (k : vlib) (p : picture) (zoom : Z) : option picture :=
  if zoom =? ZOOM_NORMAL then
    Some (mk_picture ((p_h p + 1) / 2) (p_w p) (fun y x => house_palette k (p_px p (2 * y) x)))
  else if zoom =? ZOOM_2X then
    Some (mk_picture (p_h p) (2 * p_w p) (fun y x => house_palette k (p_px p y (x / 2))))
  else if zoom =? ZOOM_4X then
    Some (mk_picture (2 * p_h p + 1) (4 * p_w p) (blow_up k p))
  else None.

(** The whole of VoxFile(path).make_house_sprite(zoom). *)
Definition vox_house (k : vlib) (file : bytes) (zoom : Z) : option picture :=
  do r <- vox_read file reader0; do p <- house_load k r; house_sprite k p zoom.

(** ** VoxTrainFile.DiagView, vox.py:263-303 *)

Definition axis : Type := Z * Z * Z.
Definition dot (a : axis) (v : vox) : Z := let '(p, q, r) := a in p * vx v + q * vy v + r * vz v.

(** vox.py:392-411: x, y and z axes of the four views. *)
Definition diag_views : list (axis * axis * axis) :=
  [((1, 0, 0), (0, 1, -2), (2, 0, 1)); ((-1, 0, 0), (0, 1, -2), (-2, 0, 1));
   ((0, -1, 0), (1, 0, -2), (1, 0, 1)); ((0, 1, 0), (1, 0, -2), (1, 0, 1))].

(** vox.py:271-301 load up to data (int(y - ymin + .5) of an integer is
    itself).  The pixel values index the four-part RGBA palette. *)
Definition diag_load (xa ya za : axis) (r : reader) : option picture :=
  let xx := map (dot xa) (r_voxels r) in
  let yy := map (dot ya) (r_voxels r) in
  do xmin <- amin xx; do xmax <- amax xx; do ymin <- amin yy; do ymax <- amax yy;
  let w := (xmax - xmin + 1 + 3) / 4 * 4 in
  let h := (ymax - ymin + 3 + 7) / 4 * 4 in
  do st <- paint_all h w diag_stencil
    (map (fun v => mk_spot (dot xa v - xmin) (dot ya v - ymin) (dot za v) (vi v)) (r_voxels r)) blank;
  Some (mk_picture h w (fun y x => snd (st y x))).
