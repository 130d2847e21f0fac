(** What sprite streams, chunked rows, resource names and sprite sheets mean,
    independent of the decoder. *)
From Coq Require Import ZArith List Bool.
Import ListNotations.
Open Scope Z_scope.

(** ---- C41: compressed streams (docs of the GRF container: literal blocks
    of 1..128 bytes, copies of 1..16 bytes from up to 2047 bytes back) ---- *)
Inductive block :=
| Lit (l : list Z)
| Copy (off n : Z).

(** A copy writes byte by byte, so it may read bytes it has just written. *)
Fixpoint copy_bytes (off : nat) (n : nat) (out : list Z) : list Z :=
  match n with
  | O => out
  | S n => copy_bytes off n (out ++ [nth (length out - off) out 0])
  end.
Definition block_out (out : list Z) (b : block) : list Z :=
  match b with
  | Lit l => out ++ l
  | Copy off n => copy_bytes (Z.to_nat off) (Z.to_nat n) out
  end.
Definition expand (bs : list block) : list Z := fold_left block_out bs [].

Definition block_code (b : block) : list Z :=
  match b with
  | Lit l => (if Z.of_nat (length l) =? 128 then 0 else Z.of_nat (length l)) :: l
  | Copy off n => [256 - 8 * n + off / 256; off mod 256]
  end.
Definition stream (bs : list block) : list Z := concat (map block_code bs).

Definition block_size (b : block) : Z :=
  match b with Lit l => Z.of_nat (length l) | Copy _ n => n end.

(** A block that makes sense after [out] bytes of output. *)
Definition block_valid (out : nat) (b : block) : Prop :=
  match b with
  | Lit l => 1 <= Z.of_nat (length l) <= 128
  | Copy off n => 1 <= n <= 16 /\ 1 <= off <= 2047 /\ off <= Z.of_nat out
  end.
Fixpoint blocks_valid (out : nat) (bs : list block) : Prop :=
  match bs with
  | [] => True
  | b :: r => block_valid out b /\ blocks_valid (out + Z.to_nat (block_size b)) r
  end.
Definition self_overlapping (b : block) : Prop :=
  match b with Lit _ => False | Copy off n => off < n end.

(** ---- C42: chunked rows ---- *)
(** One run: [r_skip] pixels from the left edge, then these pixels. *)
Record run := mk_run { r_skip : Z; r_pixels : list (list Z) }.

(** What a row of [w] pixels shows: pixel [x] comes from the last run that
    covers it, pixels no run covers are all zero. *)
Definition covers (x : Z) (r : run) : Prop :=
  r_skip r <= x < r_skip r + Z.of_nat (length (r_pixels r)).
Definition shows (bpp : nat) (runs : list run) (x : Z) (p : list Z) : Prop :=
  (exists before r after, runs = before ++ r :: after /\ covers x r
     /\ Forall (fun r => ~ covers x r) after
     /\ nth_error (r_pixels r) (Z.to_nat (x - r_skip r)) = Some p)
  \/ (Forall (fun r => ~ covers x r) runs /\ p = repeat 0 bpp).
Definition row_shows (bpp : nat) (w : Z) (runs : list run) (row : list (list Z)) : Prop :=
  Z.of_nat (length row) = w
  /\ forall x, 0 <= x < w -> exists p, nth_error row (Z.to_nat x) = Some p /\ shows bpp runs x p.

(** Bytes of a run; [wide] is the 16-bit form for container version 2 images wider
    than 256; the top bit of the length marks the last run of a row. *)
Definition run_code (wide last : bool) (r : run) : list Z :=
  let n := Z.of_nat (length (r_pixels r)) in
  (if wide then [n mod 256; n / 256 + (if last then 128 else 0); r_skip r mod 256; r_skip r / 256]
   else [n + (if last then 128 else 0); r_skip r])
  ++ concat (r_pixels r).
Fixpoint row_code (wide : bool) (runs : list run) : list Z :=
  match runs with
  | [] => []
  | [r] => run_code wide true r
  | r :: rest => run_code wide false r ++ row_code wide rest
  end.
Definition run_fits (wide : bool) (bpp : nat) (w : Z) (r : run) : Prop :=
  0 <= r_skip r /\ r_skip r + Z.of_nat (length (r_pixels r)) <= w
  /\ (if wide then r_skip r < 65536 /\ Z.of_nat (length (r_pixels r)) < 32768
      else r_skip r < 256 /\ Z.of_nat (length (r_pixels r)) < 128)
  /\ Forall (fun p => length p = bpp /\ Forall (fun c => 0 <= c < 256) p) (r_pixels r).

(** [piece] stands at position [ofs] of [data]. *)
Definition stands_at (data piece : list Z) (ofs : Z) : Prop :=
  exists pre post, data = pre ++ piece ++ post /\ Z.of_nat (length pre) = ofs.

(** Little-endian 16 and 32 bit numbers. *)
Definition le16 (v : Z) : list Z := [v mod 256; v / 256].
Definition le32 (v : Z) : list Z :=
  [v mod 256; (v / 256) mod 256; (v / 65536) mod 256; v / 16777216].

(** ---- C43: file names ---- *)
(** Characters a generated base name may contain: a-z 0-9 _ - *)
Definition name_char (c : Z) : Prop :=
  97 <= c <= 122 \/ 48 <= c <= 57 \/ c = 95 \/ c = 45.

(** ---- C56: sprite sheets ---- *)
(** Two rectangles (x, y, w, h) share no pixel. *)
Definition disjoint_rects (x1 y1 w1 h1 x2 y2 w2 h2 : Z) : Prop :=
  forall x y, x1 <= x < x1 + w1 -> y1 <= y < y1 + h1 ->
  x2 <= x < x2 + w2 -> y2 <= y < y2 + h2 -> False.

(** Bytes per pixel announced by a sprite's type byte: bit 0 RGB, bit 1
    alpha, bit 2 palette index. *)
Definition channels (t : Z) : Z :=
  (if Z.testbit t 0 then 3 else 0) + (if Z.testbit t 1 then 1 else 0)
  + (if Z.testbit t 2 then 1 else 0).
(** The image is stored in chunked form. *)
Definition chunked (t : Z) : bool := Z.testbit t 3.
(** Pixel in row [y], column [x]. *)
Definition pixel_at (im : list (list (list Z))) (y x : Z) (p : list Z) : Prop :=
  exists row, nth_error im (Z.to_nat y) = Some row /\ nth_error row (Z.to_nat x) = Some p.
(** [im] shows, row by row, the pixel bytes [d]. *)
Definition shows_bytes (im : list (list (list Z))) (h w bpp : Z) (d : list Z) : Prop :=
  Z.of_nat (length im) = h /\ Forall (fun row => Z.of_nat (length row) = w) im
  /\ forall y x, 0 <= y < h -> 0 <= x < w -> exists p, pixel_at im y x p
     /\ Z.of_nat (length p) = bpp
     /\ forall c, 0 <= c < bpp ->
        nth_error p (Z.to_nat c) = nth_error d (Z.to_nat ((y * w + x) * bpp + c)).
