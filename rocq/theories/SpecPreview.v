(** How the game shows a sprite's pixels, and its palette animation. *)
From Coq Require Import ZArith List Bool.
From Verif Require Import Base SpecLib TreeModel SpecTree SpecLayers SpecSprite PreviewModel.
Import ListNotations.
Open Scope Z_scope.

(** ** Still pictures *)

(** A colour at brightness k (128: as it is): every channel times k/128; what
    exceeds white is clipped, and half of the total excess brightens the other
    channels. *)
Definition brightened (c : Z * Z * Z) (k : Z) : list Z :=
  let '(r, g, b) := c in
  let o := (excess (scaled r k) + excess (scaled g k) + excess (scaled b k)) / 2 in
  let adj v := if 255 <=? v then 255 else Z.min (v + o * (255 - v) / 256) 255 in
  map (fun x => if Z.max (scaled r k) (Z.max (scaled g k) (scaled b k)) <=? 255 then scaled x k else adj (scaled x k)) [r; g; b].

Definition palette_entry (m : Z) : Z * Z * Z := nth (Z.to_nat m) PALETTE (0, 0, 0).

(** The red, green, blue and opacity shown for a pixel. *)
Definition shown (v : pixel) : list Z :=
  match x_rgb v, x_mask v with
  | Some c, None => c ++ match x_alpha v with Some a => a | None => [255] end
  | Some c, Some m =>
      (if nth 0 m 0 =? 0 then c
       else brightened (palette_entry (nth 0 m 0)) (Z.max (nth 0 c 0) (Z.max (nth 1 c 0) (nth 2 c 0))))
      ++ match x_alpha v with Some a => a | None => [255] end
  | None, Some m =>
      if nth 0 m 0 =? 0 then [0; 0; 0] ++ match x_alpha v with Some a => a | None => [0] end
      else let '(r, g, b) := palette_entry (nth 0 m 0) in [r; g; b; 255]
  | None, None => []
  end.

Definition pixel_bytes (v : pixel) : Prop :=
  let ok o := match o with Some l => Forall (fun c => 0 <= c < 256) l | None => True end in
  ok (x_rgb v) /\ ok (x_alpha v) /\ ok (x_mask v).

(** A picture of h rows of w pixels. *)
Definition dims (h w : Z) (l : list (list (list Z))) : Prop := len l = h /\ Forall (fun row => len row = w) l.
(** Palette entry m is used by some pixel. *)
Definition occurs (mask : list (list (list Z))) (m : Z) : Prop := exists r p, In r mask /\ In p r /\ nth 0 p 0 = m.

(** list(set(...)) in Python: every element once, in some order. *)
Definition a_set_order (so : list colour -> list colour) : Prop := forall l, NoDup (so l) /\ (forall c, In c (so l) <-> In c l).

(** ** The palette animation of the game *)

(** Position in a list of q colours when the animation counter is c; the
    counter is multiplied as a 16-bit number. *)
Definition turn (c p q : Z) : Z := (c * p) mod 65536 * q / 65536.

(** The colour of palette entry m at counter c (OpenTTD's DoPaletteAnimations);
    the lists are its oil refinery, lighthouse, dark water and glittery water
    colours.  The counter advances by 8 every 27 ms. *)
Definition animated (c m : Z) : Z * Z * Z :=
  let entry (l : list (Z * Z * Z)) k := nth (Z.to_nat (k mod len l)) l (0, 0, 0) in
  if (227 <=? m) && (m <=? 231) then
    entry [(76, 24, 8); (108, 44, 24); (144, 72, 52); (176, 108, 84); (212, 148, 128)] (turn (- c - 1) 512 5 + (m - 227))
  else if (232 <=? m) && (m <=? 238) then
    entry [(252, 60, 0); (252, 84, 0); (252, 108, 0); (252, 124, 0); (252, 148, 0); (252, 172, 0); (252, 196, 0)]
      (turn (- c - 1) 512 7 + (m - 232))
  else if (241 <=? m) && (m <=? 244) then
    entry [(240, 208, 0); (0, 0, 0); (0, 0, 0); (0, 0, 0)] (turn c 256 4 + (m - 241))
  else if (245 <=? m) && (m <=? 249) then
    entry [(32, 68, 112); (36, 72, 116); (40, 76, 120); (44, 80, 124); (48, 84, 128)] (turn c 320 5 + (m - 245))
  else if (250 <=? m) && (m <=? 254) then
    entry [(216, 244, 252); (172, 208, 224); (132, 172, 196); (100, 132, 168); (72, 100, 144);
           (72, 100, 144); (72, 100, 144); (72, 100, 144); (72, 100, 144); (72, 100, 144);
           (72, 100, 144); (72, 100, 144); (100, 132, 168); (132, 172, 196); (172, 208, 224)]
      (turn c 128 15 + 3 * (m - 250))
  else palette_entry m.

(** ** GIF files *)

(** A pixel of a frame; index 0 is transparent. *)
Definition frame_pixel (f : frame) (y x : nat) : option (Z * Z * Z) :=
  let i := nth 0 (nth x (nth y (f_px f) []) []) 0 in
  if i =? 0 then None else nth_error (f_pal f) (Z.to_nat i).
(** What is seen after frame i: the frame over what was there before. *)
Fixpoint seen (fs : list frame) (i : nat) (y x : nat) : option (Z * Z * Z) :=
  let over old := match nth_error fs i with
                  | Some f => match frame_pixel f y x with Some c => Some c | None => old end
                  | None => old end in
  match i with
  | O => over None
  | S j => over (seen fs j y x)
  end.
