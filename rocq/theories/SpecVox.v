(** What a picture of a voxel model should show, without reference to the
    z-buffer: unit cubes in the 2:1 isometric projection used by the game. *)
From Verif Require Import Base VoxModel.
From Coq Require Import ZArith List Bool.
Import ListNotations.
Open Scope Z_scope.

(** The three visible faces of a cube. *)
Inductive face := Top | LeftFace | RightFace.

(** The cube at [v] is two columns wide and three rows high on the screen:
    its column is x - y, its top row x + y - 2z; the top face fills the first
    row, the left face the left column of the other two, the right face the
    right column.  [face_of v Y X = Some f]: pixel (Y, X) lies on face [f]. *)
Definition face_of (v : vox) (Y X : Z) : option face :=
  let dy := Y - (vx v + vy v - 2 * vz v) in
  let dx := X - (vx v - vy v) in
  if (dx =? 0) || (dx =? 1) then
    if dy =? 0 then Some Top
    else if (dy =? 1) || (dy =? 2) then Some (if dx =? 0 then LeftFace else RightFace)
    else None
  else None.

(** A model: voxels with their colour in the game's palette, in file order.
    Colour 1 is the renderer's "nothing here". *)
Definition model := list (vox * Z).

Definition Hit (m : model) (Y X : Z) (i : nat) (v : vox) (c : Z) (f : face) : Prop :=
  nth_error m i = Some (v, c) /\ c <> 1 /\ face_of v Y X = Some f.

(** [v] is in front at (Y, X): no voxel that meets the pixel is nearer, and
    among equally near ones it is the first in the file. *)
Definition Front (depth : vox -> Z) (m : model) (Y X : Z) (i : nat) (v : vox) (c : Z) (f : face) : Prop :=
  Hit m Y X i v c f /\
  forall j v' c' f', Hit m Y X j v' c' f' ->
    depth v' < depth v \/ (depth v' = depth v /\ (i <= j)%nat).

(** The colour a face gets. *)
Definition shade (k : vlib) (f : face) (c : Z) : Z :=
  match (match f with Top => k_z k | LeftFace => k_x k | RightFace => k_y k end) with
  | None => c
  | Some g => g c
  end.

(** Least and greatest value of a function over a list. *)
Definition Least (f : vox -> Z) (l : list vox) (m : Z) : Prop :=
  (exists v, In v l /\ f v = m) /\ forall v, In v l -> m <= f v.
Definition Greatest (f : vox -> Z) (l : list vox) (m : Z) : Prop :=
  (exists v, In v l /\ f v = m) /\ forall v, In v l -> f v <= m.

(** The colour arithmetic returns safe palette colours. *)
Definition in_safe (c : Z) : Prop := 1 <= c <= 214 \/ c = 255.
Definition maps_safe (f : option (Z -> Z)) : Prop :=
  match f with None => True | Some g => forall c, in_safe (g c) end.
Definition lib_ok (k : vlib) : Prop :=
  (forall c, in_safe (k_best k c)) /\ maps_safe (k_z k) /\ maps_safe (k_x k) /\ maps_safe (k_y k).

(** What VoxReader leaves in memory: indices 1..255 and 255 colours. *)
Definition reader_ok (r : reader) : Prop :=
  Forall (fun v => 1 <= vi v <= 255) (r_voxels r) /\
  exists q, r_rgba r = Some q /\ length q = 255%nat.

(** The colour a voxel index stands for: the nearest safe colour of its RGB
    entry in the file's palette (numbered from 1). *)
Definition index_colour (k : vlib) (q : list (Z * Z * Z * Z)) (i c : Z) : Prop :=
  exists r g b a, nth_error q (Z.to_nat (i - 1)) = Some (r, g, b, a) /\ c = k_best k (r, g, b).

(** ** The file format (MagicaVoxel .vox) *)

Definition le4 (n : Z) : bytes := [n mod 256; n / 256 mod 256; n / 65536 mod 256; n / 16777216].

(** A chunk: id, length of the content, length of the children (written by
    MagicaVoxel for MAIN only), content. *)
Definition chunk (id : bytes) (m : Z) (content : bytes) : bytes :=
  id ++ le4 (len content) ++ le4 m ++ content.

Definition quad_bytes (q : Z * Z * Z * Z) : bytes := let '(a, b, c, d) := q in [a; b; c; d].
Definition quads (l : list (Z * Z * Z * Z)) : bytes := concat (map quad_bytes l).

Definition size_content (x y z : Z) : bytes := le4 x ++ le4 y ++ le4 z.
Definition xyzi_content (l : list (Z * Z * Z * Z)) : bytes := le4 (len l) ++ quads l.
(** 256 colours; the last one is not used. *)
Definition rgba_content (q : list (Z * Z * Z * Z)) (last : Z * Z * Z * Z) : bytes := quads (q ++ [last]).

Definition MAIN : bytes := [77; 65; 73; 78].
Definition SIZE : bytes := [83; 73; 90; 69].
Definition XYZI : bytes := [88; 89; 90; 73].
Definition RGBA : bytes := [82; 71; 66; 65].

(** Other chunks the editor writes (nTRN, MATL, ...): any id, any content. *)
Record other := mk_other { o_id : bytes; o_m : Z; o_content : bytes }.
Definition other_ok (o : other) : Prop :=
  length (o_id o) = 4%nat /\ o_id o <> SIZE /\ o_id o <> XYZI /\ o_id o <> RGBA /\
  0 <= o_m o < 2 ^ 32 /\ len (o_content o) < 2 ^ 32.
Definition other_bytes (l : list other) : bytes :=
  concat (map (fun o => chunk (o_id o) (o_m o) (o_content o)) l).

(** A file as the editor writes it: one model, one palette. *)
Definition vox_file (head : bytes) (m : Z) (a b c d : list other)
    (sx sy sz : Z) (v : list (Z * Z * Z * Z)) (q : list (Z * Z * Z * Z)) (last : Z * Z * Z * Z) : bytes :=
  head ++ chunk MAIN m [] ++ other_bytes a ++ chunk SIZE 0 (size_content sx sy sz) ++ other_bytes b ++
  chunk XYZI 0 (xyzi_content v) ++ other_bytes c ++ chunk RGBA 0 (rgba_content q last) ++ other_bytes d.

(** The picture for the game looks along the other diagonal: the y axis of
    the editor points away, so y is mirrored; the shift does not matter. *)
Definition game_vox (sx sy : Z) (p : Z * Z * Z * Z) : vox :=
  let '(x, y, z, i) := p in mk_vox (sy + x) (sx - y) z i.

(** ** Side views of trains *)

(** A voxel seen from the side is one pixel wide: its top fills one row, its
    side the two rows below.  [Some true] is the side. *)
Definition side_face (xa ya : axis) (v : vox) (Y X : Z) : option bool :=
  if X =? dot xa v then
    if Y =? dot ya v then Some false
    else if (Y =? dot ya v + 1) || (Y =? dot ya v + 2) then Some true else None
  else None.

Definition SideHit (xa ya : axis) (l : list vox) (Y X : Z) (i : nat) (v : vox) (f : bool) : Prop :=
  nth_error l i = Some v /\ side_face xa ya v Y X = Some f.

Definition SideFront (xa ya za : axis) (l : list vox) (Y X : Z) (i : nat) (v : vox) (f : bool) : Prop :=
  SideHit xa ya l Y X i v f /\
  forall j v' f', SideHit xa ya l Y X j v' f' -> dot za v' < dot za v \/ (dot za v' = dot za v /\ (i <= j)%nat).

(** The palette row of a pixel: the voxel's index, moved to the second table
    for the sides. *)
Definition side_value (v : vox) (f : bool) : Z := vi v + (if f then 256 else 0).

(** ** The whole picture *)

(** The model [m] and the corner and extent of its picture. *)
Definition Scene (k : vlib) (q : list (Z * Z * Z * Z)) (v : list vox) (m : model) (xmin xmax ymin ymax : Z) : Prop :=
  Forall2 (fun v p => fst p = v /\ index_colour k q (vi v) (snd p)) v m /\
  Least (fun v => vx v - vy v) v xmin /\ Greatest (fun v => vx v - vy v) v xmax /\
  Least (fun v => vx v + vy v - 2 * vz v) v ymin /\ Greatest (fun v => vx v + vy v - 2 * vz v) v ymax.

(** Pixel (Y, X) of the projection shows the front voxel, or nothing. *)
Definition Shows (k : vlib) (m : model) (Y X value : Z) : Prop :=
  (value = 0 /\ forall i v c f, ~ Hit m Y X i v c f) \/
  exists i v c f, Front (k_depth k) m Y X i v c f /\ value = shade k f c.

(** A file written by the editor, whose second dimension fits the first. *)
Definition file_ok (head : bytes) (m : Z) (a b c d : list other) (sx sy sz : Z)
    (v q : list (Z * Z * Z * Z)) : Prop :=
  length head = 8%nat /\ 0 <= m < 2 ^ 32 /\
  Forall other_ok a /\ Forall other_ok b /\ Forall other_ok c /\ Forall other_ok d /\
  0 <= sx < 2 ^ 32 /\ 0 <= sy < 2 ^ 32 /\ 0 <= sz < 2 ^ 32 /\
  v <> [] /\ 4 + 4 * len v < 2 ^ 32 /\ length q = 255%nat /\
  Forall (fun p => let '(x, y, z, i) := p in 0 < i < 256) v.
Definition narrow (sx : Z) (v : list (Z * Z * Z * Z)) : Prop :=
  Forall (fun p => let '(x, y, z, i) := p in 0 <= sx - y < 256) v.
