(** Model of the buildings of Industry (grf/lib/industry.py:16-72) and of the
    way its layouts use them (125-158).  Definitions only.

    Not modelled: the records around them (the Define and Action 3 of the
    industry and its tile), which other files model, and Python's typeguard. *)
From Coq Require Import ZArith List Bool.
From Verif Require Import Base RecordsModel.
Import ListNotations.
Open Scope Z_scope.

(** 18-27 Building: the size in tiles and the FileSprite: its place in the
    file, its height, its offsets.  (A sprite of unknown height raises
    TypeError.) *)
Record building := mk_building { b_w : Z; b_h : Z; b_x : Z; b_y : Z; b_height : Z; b_xofs : Z; b_yofs : Z }.
(** The arguments of the FileSprites made in 43-52; file and bpp are those of
    the building's sprite. *)
Record piece := mk_piece { q_x : Z; q_y : Z; q_w : Z; q_h : Z; q_xofs : Z; q_yofs : Z }.

Definition pos : Type := Z * Z.
Definition pos_eqb (a b : pos) : bool := (fst a =? fst b) && (snd a =? snd b).
(** tiles, sprites: 32-33. *)
Definition pieces : Type := list (pos * Z) * list piece.

(** 35-56 add_strip, the loop; [fuel] bounds the number of rounds and never
    runs out (C62_total). *)
Fixpoint strip (fuel : nat) (b : building) (lx ly x w xofs yofs delta ybottom : Z) (st : pieces) : option pieces :=
  match fuel with
  | O => None
  | S fuel =>
      if (0 <? delta) && (0 <? ybottom) then
        let ytop := Z.max (ybottom - 231) 0 in
        let delta := Z.min (Z.min (lx - 1) (ly - 1)) 7 in
        let ytop := if delta =? 0 then 0 else ytop in
        let tiles := dict_set pos_eqb (fst st) (lx, ly) (len (snd st)) in
        let sprites := snd st ++ [mk_piece (b_x b + x) (b_y b + ytop) w (ybottom - ytop) xofs (b_yofs b + yofs + ytop)] in
        strip fuel b (lx - delta) (ly - delta) x w xofs (yofs + delta * 32) delta ytop (tiles, sprites)
      else Some st
  end.
(** 36-38. *)
Definition add_strip (b : building) (lx ly x w xofs yofs : Z) (st : pieces) : option pieces :=
  strip (S (Z.to_nat (b_height b))) b lx ly x w xofs yofs 1 (b_height b) st.

(** range(1, n). *)
Definition range1 (n : Z) : list Z := map Z.of_nat (seq 1 (Z.to_nat n - 1)).
Fixpoint strips (f : Z -> pieces -> option pieces) (l : list Z) (st : pieces) : option pieces :=
  match l with [] => Some st | i :: l => do st <- f i st; strips f l st end.
(** 29-70 get_sprites. *)
Definition building_sprites (b : building) : option pieces :=
  let w := b_w b in
  let h := b_h b in
  do st <- strips (fun i => add_strip b w i (- b_xofs b - 32 * (h - i + 1) + 1) 32 (-31) ((h - i) * 16)) (range1 h) ([], []);
  do st <- add_strip b w h (- b_xofs b - 31) 64 (-31) 0 st;
  strips (fun i => add_strip b (w - i) h (- b_xofs b + i * 32 + 1) 32 1 (i * 16)) (range1 w) st.

(** ---- layouts ---- *)

(** 125-127: the sprites of the tile ([None] is grf.EMPTY_SPRITE) and the
    buildings cut up so far.  Buildings are objects, told apart by identity. *)
Definition store : Type := list (option piece) * list (nat * (list (pos * Z) * Z)).

(** range(n). *)
Definition range0 (n : Z) : list Z := map Z.of_nat (seq 0 (Z.to_nat n)).
(** 141-146: [for x in range(b.size[0]): for y in range(b.size[0])]. *)
Definition claimed (b : building) (x0 y0 : Z) : list pos :=
  flat_map (fun x => map (fun y => (x + x0, y + y0)) (range0 (b_w b))) (range0 (b_w b)).
Fixpoint occupy (keys : list pos) (occ : list pos) : option (list pos) :=
  match keys with
  | [] => Some occ
  | k :: keys => do! (negb (existsb (pos_eqb k) occ)); occupy keys (occ ++ [k])
  end.

(** 133-150, one building of a layout. *)
Definition place (bs : nat -> building) (st : store) (r : list (pos * Z) * list pos) (e : Z * Z * nat)
  : option (store * (list (pos * Z) * list pos)) :=
  let '(x0, y0, b) := e in
  do (st, tl, sofs) <-
    (match dict_get Nat.eqb (snd st) b with
     | Some (tl, sofs) => Some (st, tl, sofs)
     | None =>
         do (tl, sl) <- building_sprites (bs b);
         let sofs := len (fst st) in
         Some ((fst st ++ map Some sl, snd st ++ [(b, (tl, sofs))]), tl, sofs)
     end);
  do occ <- occupy (claimed (bs b) x0 y0) (snd r);
  Some (st, (fold_left (fun t e => let '((x, y), n) := e in dict_set pos_eqb t (x + x0 - 1, y + y0 - 1) (n + sofs)) tl (fst r), occ)).
Fixpoint place_all (bs : nat -> building) (st : store) (r : list (pos * Z) * list pos) (l : list (Z * Z * nat))
  : option (store * (list (pos * Z) * list pos)) :=
  match l with
  | [] => Some (st, r)
  | e :: l => do (st, r) <- place bs st r e; place_all bs st r l
  end.
(** 154: the ranges of the switch over relative_pos. *)
Definition switch_ranges (tiles : list (pos * Z)) : list (Z * Z) :=
  fold_left (fun d e => let '((x, y), n) := e in dict_set Z.eqb d (Z.lor (Z.shiftl y 8) x) n) tiles [].
(** 128-158: the switch and the tiles of each layout. *)
Fixpoint layouts (bs : nat -> building) (st : store) (ls : list (list (Z * Z * nat)))
  : option (store * list (list (Z * Z) * list pos)) :=
  match ls with
  | [] => Some (st, [])
  | l :: ls =>
      do (st, (tiles, occ)) <- place_all bs st ([], []) l;
      do (st, r) <- layouts bs st ls;
      Some (st, (switch_ranges tiles, occ) :: r)
  end.
(** 125-158: sprites = [grf.EMPTY_SPRITE]. *)
Definition industry_graphics (bs : nat -> building) (ls : list (list (Z * Z * nat)))
  : option (list (option piece) * list (list (Z * Z) * list pos)) :=
  do (st, r) <- layouts bs ([None], []) ls; Some (fst st, r).
