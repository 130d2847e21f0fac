(** Previews of sprites: grf/sprites.py:476-577 (Sprite.save_gif) and 579-601
    (Sprite.make_rgba_image).  Definitions only.

    numpy arrays are layers as in SpriteModel; arrays of another shape than
    (h, w) are taken to raise (numpy would broadcast arrays of height or
    width 1).  The numbers are those of numpy 1.x (setup.py:10): a Python
    integer times an uint8 does not overflow. *)
From Coq Require Import ZArith List Bool.
From Verif Require Import Base SpriteModel LibModel PaletteData TreeModel.
Import ListNotations.
Open Scope Z_scope.

Definition colour := (Z * Z * Z)%type.
Definition of_colour (c : colour) : list Z := let '(r, g, b) := c in [r; g; b].

(** ** make_rgba_image, sprites.py:579-601 *)

(** np.zeros((h, w, 4)) *)
Definition zeros (h w : Z) : layer := repeat (repeat [0; 0; 0; 0] (Z.to_nat w)) (Z.to_nat h).
(** img[..., :3] = c, img[..., 3] = a of one pixel *)
Definition set_rgb (c p : list Z) : list Z := firstn 3 c ++ skipn 3 p.
Definition set_alpha (a p : list Z) : list Z := firstn 3 p ++ a.
(** mask > 0 *)
Definition masked (m : list Z) : bool := 0 <? nth 0 m 0.
(** max(c) *)
Definition py_max (c : list Z) : Z := match c with [] => 0 | x :: r => fold_left Z.max r x end.

(** element by element over three arrays of one shape *)
Definition zip3 (f : list Z -> list Z -> list Z -> list Z) (a b c : layer) : layer :=
  map (fun r => map (fun q => f (fst q) (fst (snd q)) (snd (snd q))) (combine (fst r) (combine (fst (snd r)) (snd (snd r)))))
    (combine a (combine b c)).

Definition make_rgba (d : layers) : option layer :=
  do! (shape_ok (l_h d) (l_w d) 3 (l_rgb d) && shape_ok (l_h d) (l_w d) 1 (l_alpha d) && shape_ok (l_h d) (l_w d) 1 (l_mask d));
  (* 581 *)
  let img := zeros (l_h d) (l_w d) in
  (* 582-583 *)
  let img := match l_alpha d with Some a => zip_layers set_alpha a img | None => img end in
  let opaque img := match l_alpha d with Some _ => img | None => map_px (set_alpha [255]) img end in
  match l_mask d, l_rgb d with
  | None, None => None                      (* img[...] = None: TypeError *)
  | None, Some rgb => Some (opaque (zip_layers set_rgb rgb img))                       (* 585-588 *)
  | Some mask, None =>                                                                   (* 589-592 *)
      Some (zip_layers (fun m p => if masked m
                                   then set_alpha [255] (set_rgb (of_colour (nth (Z.to_nat (nth 0 m 0)) PALETTE (0, 0, 0))) p)
                                   else p) mask img)
  | Some mask, Some rgb =>                                                               (* 593-600 *)
      (* 598: without a masked pixel the right hand side is an empty list, of
         shape (0,), which numpy cannot broadcast to (0, 3) *)
      do! existsb (existsb masked) mask;
      let img := zip3 (fun m c p => if masked m then p else set_rgb c p) mask rgb img in
      let img := zip3 (fun m c p => if masked m
                                    then set_rgb (of_colour (adjust_brightness (nth (Z.to_nat (nth 0 m 0)) PALETTE (0, 0, 0)) (py_max c))) p
                                    else p) mask rgb img in
      Some (opaque img)
  end.

(** ** save_gif, sprites.py:476-577 *)

(** sprites.py:480-499 *)
Definition DARK_BLUE_WATER : list colour := [(32, 68, 112); (36, 72, 116); (40, 76, 120); (44, 80, 124); (48, 84, 128)].
Definition LIGHTHOUSE_AND_STADIUM : list colour := [(240, 208, 0); (0, 0, 0); (0, 0, 0); (0, 0, 0)].
Definition OIL_REFINERY_AND_FIRE : list colour :=
  [(252, 60, 0); (252, 84, 0); (252, 108, 0); (252, 124, 0); (252, 148, 0); (252, 172, 0); (252, 196, 0)].
Definition FIZZY_DRINKS : list colour := [(76, 24, 8); (108, 44, 24); (144, 72, 52); (176, 108, 84); (212, 148, 128)].
Definition GLITTERY_WATER : list colour :=
  [(216, 244, 252); (172, 208, 224); (132, 172, 196); (100, 132, 168);
   (72, 100, 144); (72, 100, 144); (72, 100, 144); (72, 100, 144);
   (72, 100, 144); (72, 100, 144); (72, 100, 144); (72, 100, 144);
   (100, 132, 168); (132, 172, 196); (172, 208, 224)].

(** sprites.py:504-508 extr, extr2 *)
Definition extr (p q counter : Z) : Z := Z.shiftr (Z.land (counter * p) 65535 * q) 16.
Definition extr2 (p q counter : Z) : Z := Z.shiftr (Z.land (Z.lnot counter * p) 65535 * q) 16.

(** l[a:b] with Python's treatment of negative positions *)
Definition py_slice {A} (a b : Z) (l : list A) : list A :=
  let at_ x := if x <? 0 then Z.max 0 (x + len l) else Z.min x (len l) in
  firstn (Z.to_nat (at_ b - at_ a)) (skipn (Z.to_nat (at_ a)) l).
(** l[a:b:s] for positions that are not negative *)
Definition stride (a b s : nat) (l : list nat) : list nat :=
  map (fun i => nth i l 0%nat)
    (filter (fun i => Nat.leb a i && Nat.ltb i b && Nat.eqb (Nat.modulo (i - a) s) 0) (seq 0 (length l))).
(** l[a:a + len(v)] = v *)
Definition splice {A} (a : nat) (v l : list A) : list A := firstn a l ++ v ++ skipn (a + length v) l.

Definition eqb_colour (a b : colour) : bool := same_colour a b.
(** position of a colour; KeyError otherwise *)
Fixpoint position (c : colour) (l : list colour) : option nat :=
  match l with
  | [] => None
  | x :: l => if eqb_colour x c then Some O else option_map S (position c l)
  end.

(** [f(x) for x in l] where f may raise *)
Fixpoint map_opt {A B} (f : A -> option B) (l : list A) : option (list B) :=
  match l with
  | [] => Some []
  | x :: l => do y <- f x; do r <- map_opt f l; Some (y :: r)
  end.

(** sprites.py:510-520 init_cycle.  [set_order] is list(set(colours)): the
    distinct colours in the order of Python's hash table.  Result: the new
    palette and (start, size, res). *)
Record cycle := mk_cycle { c_start : nat; c_size : nat; c_res : list (list nat) }.
Definition init_cycle (set_order : list colour -> list colour) (pal : list colour)
    (start size : nat) (colours : list colour) (func : Z -> Z) (length_ : nat) (step : nat) : option (list colour * cycle) :=
  let cset := set_order colours in
  do! Nat.leb (length cset) size;
  let pal := splice start cset pal in
  do indexed <- map_opt (fun x => option_map (fun i => (i + start)%nat) (position x cset)) colours;
  let res := map (fun c => let j := Z.to_nat (func (8 * Z.of_nat c)) in
                           stride j (length indexed) step indexed ++ stride (Nat.modulo j step) j step indexed)
                 (seq 0 length_) in
  Some (pal, mk_cycle start size res).

(** sprites.py:548-553 the table *)
Definition CYCLES : list (nat * nat * list colour * (Z -> Z) * nat * nat) :=
  [ (227, 5, FIZZY_DRINKS, extr2 512 5, 16, 1);
    (232, 7, OIL_REFINERY_AND_FIRE, extr2 512 7, 16, 1);
    (241, 4, LIGHTHOUSE_AND_STADIUM, extr 256 4, 32, 1);
    (245, 5, DARK_BLUE_WATER, extr 320 5, 128, 1);
    (250, 5, GLITTERY_WATER, extr 128 15, 64, 3) ]%nat.

(** sprites.py:542 np.isin(np.arange(0xE8, 0xFF), mask) *)
Definition has_colors (mask : layer) : list bool :=
  map (fun k => existsb (existsb (fun p => nth 0 p 0 =? 232 + Z.of_nat k)) mask) (seq 0 23).

(** sprites.py:547-555 *)
Fixpoint collect (set_order : list colour -> list colour) (hc : list bool) (pal : list colour)
    (t : list (nat * nat * list colour * (Z -> Z) * nat * nat)) : option (list colour * list cycle) :=
  match t with
  | [] => Some (pal, [])
  | (start, size, colours, func, n, step) :: t =>
      if existsb (fun b => b) (py_slice (Z.of_nat start - 232) (Z.of_nat start + Z.of_nat size - 232) hc) then
        do (pal, c) <- init_cycle set_order pal start size colours func n step;
        do (pal, cs) <- collect set_order hc pal t;
        Some (pal, c :: cs)
      else collect set_order hc pal t
  end.

(** remap[start:start + size] = v; numpy raises unless v has size elements *)
Definition assign (start size : nat) (v remap : list nat) : option (list nat) :=
  do! Nat.eqb (length v) size; Some (splice start v remap).
(** colours[i % len(colours)] *)
Definition row (c : cycle) (i : nat) : list nat := nth (Nat.modulo i (length (c_res c))) (c_res c) [].

(** sprites.py:561-564 *)
Fixpoint first_remap (cs : list cycle) (remap : list nat) : option (list nat) :=
  match cs with
  | [] => Some remap
  | c :: cs => do remap <- assign (c_start c) (c_size c) (row c 0) remap; first_remap cs remap
  end.
(** sprites.py:566-574; the palette is kept as a list of colours instead of
    the flat list of their channels *)
Fixpoint later_remap (pal : list colour) (i : nat) (cs : list cycle) (cur : nat) (remap : list nat) (fp : list colour)
    : list nat * list colour :=
  match cs with
  | [] => (remap, fp)
  | c :: cs =>
      let remap := splice (c_start c) (seq cur (c_size c)) remap in
      later_remap pal i cs (cur + c_size c) remap (fp ++ map (fun k => nth k pal (0, 0, 0)) (row c i))
  end.

Record frame := mk_frame { f_pal : list colour; f_px : layer }.
(** remap[mask] *)
Definition remapped (remap : list nat) (mask : layer) : layer :=
  map_px (fun p => [Z.of_nat (nth (Z.to_nat (nth 0 p 0)) remap 0%nat)]) mask.

Definition make_frame (pal : list colour) (cs : list cycle) (mask : layer) (i : nat) : option frame :=
  match i with
  | O => do remap <- first_remap cs (seq 0 256); Some (mk_frame pal (remapped remap mask))
  | _ => let '(remap, fp) := later_remap pal i cs 1 (repeat 0%nat 256) [(0, 0, 0)] in
         Some (mk_frame fp (remapped remap mask))
  end.

(** The frames given to PIL (save_all, transparency=0, dispose=1: a frame is
    drawn over the previous one, index 0 leaves the pixel as it was). *)
Definition save_gif (set_order : list colour -> list colour) (d : layers) : option (list frame) :=
  do! (match l_rgb d, l_alpha d with None, None => true | _, _ => false end);
  do mask <- l_mask d;
  let hc := has_colors mask in
  (* 544-545 and 557: init_radio_tower returns a pair where the loop in 557
     unpacks three values: ValueError *)
  do! negb (existsb (fun b => b) (py_slice 7 9 hc));
  do (pal, cs) <- collect set_order hc PALETTE CYCLES;
  (* 557 max() of an empty sequence raises *)
  do! negb (match cs with [] => true | _ => false end);
  let n := fold_left Nat.max (map (fun c => length (c_res c)) cs) O in
  map_opt (make_frame pal cs mask) (seq 0 n).
