(** Producing real sprites: grf/sprites.py:80-117 (restore_rgba_image),
    292-471 (Sprite), 680-698 (EmptySprite), 809-820 (RAWSound).

    A layer is a list of rows of pixels, a pixel is the list of its channel
    bytes: three for RGB, one for alpha and mask.  (numpy keeps alpha and mask
    as two-dimensional arrays; the extra singleton list is only notation.) *)
From Coq Require Import ZArith List Bool.
From Verif Require Import Base.
Import ListNotations.
Open Scope Z_scope.

Definition layer := list (list (list Z)).

(** What get_data_layers returned: sprites.py:415. *)
Record layers := mk_layers {
  l_w : Z; l_h : Z; l_rgb : option layer; l_alpha : option layer; l_mask : option layer }.

(** layer.shape == (h, w, depth). *)
Definition has_shape (h w : Z) (depth : nat) (l : layer) : bool :=
  (len l =? h)
  && forallb (fun row => (len row =? w) && forallb (fun p => Nat.eqb (length p) depth) row) l.
Definition shape_ok (h w : Z) (depth : nat) (l : option layer) : bool :=
  match l with None => true | Some l => has_shape h w depth l end.

(** numpy any(): some channel is not 0. *)
Definition nonzero (p : list Z) : bool := existsb (fun c => negb (c =? 0)) p.

(** np.arange(w)[layer.any(0)], np.arange(h)[layer.any(1)] (for RGB any((0,2)),
    any((1,2))). *)
Definition cols_used (w : Z) (l : layer) : list Z :=
  filter (fun x => existsb (fun row => nonzero (nth (Z.to_nat x) row [])) l)
    (map Z.of_nat (seq 0 (Z.to_nat w))).
Definition rows_used (h : Z) (l : layer) : list Z :=
  filter (fun y => existsb nonzero (nth (Z.to_nat y) l []))
    (map Z.of_nat (seq 0 (Z.to_nat h))).
(** min(l, default=0), max(l, default=0). *)
Definition min_default (l : list Z) : Z :=
  match l with [] => 0 | x :: r => fold_left Z.min r x end.
Definition max_default (l : list Z) : Z :=
  match l with [] => 0 | x :: r => fold_left Z.max r x end.

(** layer[y: y + h, x: x + w] for non-negative bounds. *)
Definition cut (x y w h : Z) (l : layer) : layer :=
  map (fun row => firstn (Z.to_nat w) (skipn (Z.to_nat x) row))
    (firstn (Z.to_nat h) (skipn (Z.to_nat y) l)).

(** sprites.py:330-363 Sprite._do_crop: crop_x, crop_y and the new size and
    layers; all layers None raises. *)
Definition do_crop (crop : bool) (d : layers) : option (Z * Z * layers) :=
  if negb crop then Some (0, 0, d) else
  do key <- (match l_alpha d, l_rgb d, l_mask d with
             | Some a, _, _ => Some a
             | None, Some r, _ => Some r
             | None, None, Some m => Some m
             | None, None, None => None
             end);
  let cols := cols_used (l_w d) key in
  let rows := rows_used (l_h d) key in
  let crop_x := min_default cols in
  let crop_y := min_default rows in
  let w := max_default cols - crop_x + 1 in
  let h := max_default rows - crop_y + 1 in
  let c := option_map (cut crop_x crop_y w h) in
  Some (crop_x, crop_y, mk_layers w h (c (l_rgb d)) (c (l_alpha d)) (c (l_mask d))).

(** Sprite fields used by get_real_data: sprites.py:293-303. *)
Record sprite := mk_sprite { s_xofs : Z; s_yofs : Z; s_zoom : Z; s_crop : bool }.

(** layer.reshape(wh, depth): raises unless there are wh pixels. *)
Definition reshape (wh : Z) (l : layer) : option (list (list Z)) :=
  let px := concat l in do! (len px =? wh); Some px.

(** np.concatenate(stack, axis=1): channels of each pixel side by side. *)
Fixpoint zip_pixels (a b : list (list Z)) : list (list Z) :=
  match a, b with
  | x :: a, y :: b => (x ++ y) :: zip_pixels a b
  | _, _ => []
  end.
Fixpoint stack_pixels (st : list (list (list Z))) : option (list (list Z)) :=
  match st with
  | [] => None                                       (* stack[0]: IndexError *)
  | [a] => Some a
  | a :: r => do b <- stack_pixels r; Some (zip_pixels a b)
  end.

Definition optl {A} (o : option A) : list A := match o with Some a => [a] | None => [] end.

(** sprites.py:430-459: info byte and the raw bytes handed to the compressor.
    The RGB+alpha pair is composed pixel by pixel; the shortcut through
    restore_rgba_image is modelled separately ([restore_rgba]). *)
Definition info_raw (d : layers) : option (Z * bytes) :=
  let wh := l_w d * l_h d in
  let bpp := (match l_rgb d with Some _ => 3 | None => 0 end)
             + (match l_alpha d with Some _ => 1 | None => 0 end) in
  let use_mask := match l_mask d with
                  | Some m => (bpp =? 0) || existsb (existsb nonzero) m
                  | None => false end in
  let info := Z.lor (Z.lor (Z.lor 64 (match l_rgb d with Some _ => 1 | None => 0 end))
                           (match l_alpha d with Some _ => 2 | None => 0 end))
                    (if use_mask then 4 else 0) in
  let mask := if use_mask then l_mask d else None in
  do rgb <- (match l_rgb d with Some l => option_map Some (reshape wh l) | None => Some None end);
  do alpha <- (match l_alpha d with Some l => option_map Some (reshape wh l) | None => Some None end);
  do m <- (match mask with Some l => option_map Some (reshape wh l) | None => Some None end);
  do px <- stack_pixels (optl rgb ++ optl alpha ++ optl m);
  Some (info, concat px).

(** sprites.py:414-471 Sprite.get_real_data; [compress] is
    context.sprite_compress (NML's compressor, not part of the repository). *)
Definition get_real_data (compress : bytes -> bytes) (s : sprite) (d : layers) : option bytes :=
  do! (shape_ok (l_h d) (l_w d) 3 (l_rgb d));
  do! (shape_ok (l_h d) (l_w d) 1 (l_alpha d));
  do! (shape_ok (l_h d) (l_w d) 1 (l_mask d));
  do (cx, cy, c) <- do_crop (s_crop s) d;
  do (info, raw) <- info_raw c;
  do hd <- concat_opt [pack_B info; pack_B (s_zoom s); pack_H (l_h c); pack_H (l_w c);
                       pack_h (s_xofs s + cx); pack_h (s_yofs s + cy)];
  Some (hd ++ compress raw).

(** sprites.py:687-698 EmptySprite.get_real_data. *)
Definition empty_real_data : option bytes :=
  concat_opt [pack_B 4; pack_B 0; pack_H 1; pack_H 1; pack_h 0; pack_h 0; pack_B 1; pack_B 0].

(** sprites.py:816-821 RAWSound.get_real_data for a file called [name] holding
    [data].  Names over 256 bytes raise (bytes + str), and 256 does not fit
    the length byte. *)
Definition sound_real_data (name data : bytes) : option bytes :=
  do hd <- concat_opt [pack_B 255; pack_B 255; pack_B (len name)];
  Some (hd ++ name ++ 0 :: data).

(** ---- restore_rgba_image: sprites.py:80-117 ---- *)

(** A strided view of three dimensions: the base array it was cut from (an
    identity), address of its first byte, shape and strides.  Item (i,j,k)
    is the memory byte at addr + i*st0 + j*st1 + k*st2.  The two-dimensional
    alpha view uses k = 0. *)
Record view := mk_view {
  v_base : Z; v_addr : Z; v_shape : Z * Z * Z; v_strides : Z * Z * Z }.
Definition item (mem : Z -> Z) (v : view) (i j k : Z) : Z :=
  let '(s0, s1, s2) := v_strides v in mem (v_addr v + i * s0 + j * s1 + k * s2).

(** [base] is the view of the base array itself (rgb.base).  The metadata
    comparisons of line 102 and the dtype check of line 109 hold for uint8
    arrays and are left out; [contig] is ii['strides'] is None, which numpy
    reports for C-contiguous arrays. *)
Definition contig (v : view) : bool :=
  let '(n0, n1, n2) := v_shape v in let '(s0, s1, s2) := v_strides v in
  (s2 =? 1) && (s1 =? n2) && (s0 =? n1 * n2).
Definition restore_rgba (base rgb alpha : view) : option view :=
  if negb (v_base rgb =? v_base alpha) then None else
  if negb (v_addr rgb + 3 =? v_addr alpha) then None else
  let '(r0, r1, r2) := v_strides rgb in let '(a0, a1, _) := v_strides alpha in
  if contig rgb || negb ((r0 =? a0) && (r1 =? a1)) || negb (r2 =? 1) then None else
  let '(n0, n1, n2) := v_shape rgb in let '(m0, m1, _) := v_shape alpha in
  if negb ((n0 =? m0) && (n1 =? m1)) || negb (n2 =? 3) then None else
  let '(b0, b1, b2) := v_shape base in let '(x, y, z) := v_strides base in
  if (b0 =? m0) && (b1 =? m1) then Some base else
  let flat := v_addr rgb - v_addr base in
  let ox := flat / x in let oy := (flat mod x) / y in let oz := (flat mod y) / z in
  Some (mk_view (v_base base) (v_addr base + ox * x + oy * y + oz * z)
          (Z.min m0 (b0 - ox), Z.min m1 (b1 - oy), Z.min 4 (b2 - oz)) (x, y, z)).
