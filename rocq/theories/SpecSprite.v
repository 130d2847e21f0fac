(** Images, offsets and layers, independent of the code. *)
From Coq Require Import ZArith List Bool.
From Verif Require Import SpecDecode.
Import ListNotations.
Open Scope Z_scope.

(** [l] has [h] rows of [w] pixels of [depth] bytes. *)
Definition is_layer (h w : Z) (depth : nat) (l : list (list (list Z))) : Prop :=
  Z.of_nat (length l) = h
  /\ Forall (fun row => Z.of_nat (length row) = w
       /\ Forall (fun p => length p = depth /\ Forall (fun c => 0 <= c < 256) p) row) l.

(** Drawn with its top-left corner at (ox, oy), [l] puts [p] at (X, Y). *)
Definition drawn (l : list (list (list Z))) (ox oy X Y : Z) (p : list Z) : Prop :=
  0 <= X - ox /\ 0 <= Y - oy /\ pixel_at l (Y - oy) (X - ox) p.

(** Not all channels are zero. *)
Definition marked (p : list Z) : Prop := exists c, In c p /\ c <> 0.

(** The three layers of a sprite. *)
Record picture := mk_picture {
  p_rgb : option (list (list (list Z)));
  p_alpha : option (list (list (list Z)));
  p_mask : option (list (list (list Z))) }.
Definition is_picture (h w : Z) (p : picture) : Prop :=
  (forall l, p_rgb p = Some l -> is_layer h w 3 l)
  /\ (forall l, p_alpha p = Some l -> is_layer h w 1 l)
  /\ (forall l, p_mask p = Some l -> is_layer h w 1 l).

(** The game shows nothing at a pixel whose alpha is 0; without an alpha
    layer RGB pixels are opaque; a pure palette image is transparent where
    the index is 0. *)
Definition visible (p : picture) (X Y ox oy : Z) : Prop :=
  match p_alpha p, p_rgb p, p_mask p with
  | Some a, _, _ => exists v, drawn a ox oy X Y v /\ marked v
  | None, Some r, _ => exists v, drawn r ox oy X Y v
  | None, None, Some m => exists v, drawn m ox oy X Y v /\ marked v
  | None, None, None => False
  end.

(** Every layer of [q] drawn at (ox', oy') puts [v] at (X, Y) exactly when
    the corresponding layer of [p] drawn at (ox, oy) does. *)
Definition same_at (p q : picture) (ox oy ox' oy' X Y : Z) : Prop :=
  forall sel, In sel [p_rgb; p_alpha; p_mask] ->
  match sel p, sel q with
  | None, None => True
  | Some l, Some l' => forall v, drawn l ox oy X Y v <-> drawn l' ox' oy' X Y v
  | _, _ => False
  end.
(** Nothing at all is drawn by [q] at (X, Y). *)
Definition blank_at (q : picture) (ox oy X Y : Z) : Prop :=
  forall sel l v, In sel [p_rgb; p_alpha; p_mask] -> sel q = Some l -> ~ drawn l ox oy X Y v.

(** ---- C46 ---- *)
(** The layer a type bit announces; [None] contributes no channel. *)
Definition layer_pixel (l : option (list (list (list Z)))) (y x : Z) (v : list Z) : Prop :=
  match l with None => v = [] | Some l => pixel_at l y x v end.
Definition all_zero (l : list (list (list Z))) : Prop :=
  Forall (Forall (fun p => p = [0])) l.

(** A compressor is correct if its output is a stream of blocks describing
    its input, without self-overlapping copies. *)
Definition compressor (f : list Z -> list Z) : Prop :=
  forall raw, Forall (fun b => 0 <= b < 256) raw ->
  exists bs, f raw = stream bs /\ blocks_valid 0 bs
    /\ Forall (fun b => ~ self_overlapping b) bs /\ expand bs = raw.

(** The simplest compressor: literals only. *)
Fixpoint literals (fuel : nat) (raw : list Z) : list block :=
  match fuel, raw with
  | S fuel, _ :: _ => Lit (firstn 128 raw) :: literals fuel (skipn 128 raw)
  | _, _ => []
  end.
Definition store (raw : list Z) : list Z := stream (literals (length raw) raw).
