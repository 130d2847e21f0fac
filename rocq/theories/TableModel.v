(** Model of SpriteTable and VehicleSpriteTable (grf/lib/vehicle.py:8-56) and
    of SpriteSheet (grf/grf.py:34-61).  Definitions only.

    A sprite is a value of an arbitrary type: the table only stores and emits
    sprites.  None models any Python exception. *)
From Coq Require Import ZArith List Bool.
From Verif Require Import Base CommonModel RecordsModel Action2Model.
Import ListNotations.
Open Scope Z_scope.

Section Table.
  Context {A : Type}.

  (** ** SpriteTable *)

  (** vehicle.py:9-13 __init__: self.feature, self._rows, self._width.  The
      width of a plain SpriteTable is None. *)
  Record table := mkTable { tb_feature : Z; tb_rows : list (list A); tb_width : option Z }.

  (** vehicle.py:9-13.  The argument is a Feature already (line 10). *)
  Definition plain_table (feature : Z) : table := mkTable feature [] None.

  (** vehicle.py:35-38: only vehicle features; the width is set to 8. *)
  Definition vehicle_table (feature : Z) : option table :=
    if is_vehicle feature then Some (mkTable feature [] (Some 8)) else None.

  (** vehicle.py:15-21: the table afterwards and the row's number, or None for
      the ValueError, which is raised before the table is changed. *)
  Definition add_row (t : table) (row : list A) : option (table * Z) :=
    if (match tb_width t with Some w => negb (len row =? w) | None => false end)
    then None
    else Some (mkTable (tb_feature t) (tb_rows t ++ [row]) (tb_width t), len (tb_rows t)).

  (** What a generator yields here: an Action1 record or a real sprite. *)
  Inductive item := IAction1 (data : bytes) | ISprite (s : A).

  (** vehicle.py:23-34, with the record already encoded by Action1.get_data
      (actions.py:1493-1505; RecordsModel.action1_data).  With the width None
      struct.pack raises on the sprite count. *)
  Definition get_sprites (t : table) : option (list item) :=
    match tb_rows t with
    | [] => None
    | rows =>
        do w <- tb_width t;
        do d <- action1_data (mkA1 (tb_feature t) (len rows) w None);
        Some (IAction1 d :: flat_map (map ISprite) rows)
    end.

  (** vehicle.py:40-41 get_layout; the feature and ref_id are filled in when
      the layout is written. *)
  Definition get_layout (row_id feature ref_id : Z) : option generic :=
    generic_init (mkGen2 feature ref_id [row_id] [row_id]).

  (** vehicle.py:43-53 add_purchase_graphics: [empty] is EMPTY_SPRITE;
      [second_head or EMPTY_SPRITE] (sprites have no truth value of their own,
      so only None is replaced). *)
  Definition purchase_row (empty sprite : A) (second_head : option A) : list A :=
    [ empty; empty; match second_head with Some s => s | None => empty end; empty;
      empty; empty; sprite; empty ].
  Definition add_purchase_graphics (t : table) (empty sprite : A) (second_head : option A) :=
    add_row t (purchase_row empty sprite second_head).
End Table.
Arguments table : clear implicits.
Arguments item : clear implicits.

(** ** SpriteSheet.make_image *)

(** The part of a sprite make_image uses, apart from the attributes it sets:
    s.w, s.h and what s.draw(im) puts at each place of its own rectangle. *)
Record dims := mkDims { sp_w : Z; sp_h : Z; sp_pix : Z -> Z -> Z }.

(** The image: its size and colour index of each pixel. *)
Record image := mkImage { im_w : Z; im_h : Z; im_at : Z -> Z -> Z }.

Section Sheet.
  (** What each object of the program looks like; a sprite is named by its
      identity, so that one object may be in the sheet twice. *)
  Context (look : Z -> dims).

  (** grf.py:40, 42: sum(s.w for s in ...), max((s.h for s in ...), default=0). *)
  Definition sum_w (l : list Z) : Z := fold_left (fun a s => a + sp_w (look s)) l 0.
  Definition max_h (l : list Z) : Z :=
    match l with
    | [] => 0
    | s :: r => fold_left (fun a s => Z.max a (sp_h (look s))) r (sp_h (look s))
    end.

  (** range(0, n, columns) with columns > 0. *)
  Definition steps (n columns : nat) : list nat :=
    map (fun k => (k * columns)%nat) (seq 0 ((n + columns - 1) / columns)).

  (** self._sprites[i: i + columns] *)
  Definition slice (l : list Z) (i columns : nat) : list Z := firstn columns (skipn i l).

  (** grf.py:39-44: the loop computing w, h and lineofs. *)
  Definition measure (l : list Z) (padding : Z) (columns : nat) : Z * Z * list Z :=
    fold_left (fun '(w, h, lineofs) i =>
                 (Z.max w (sum_w (slice l i columns)),
                  h + (padding + max_h (slice l i columns)),
                  lineofs ++ [h]))
              (steps (length l) columns) (0, padding, []).

  (** s.draw(im) at (s.x, s.y): the sprite's rectangle, and nothing else, is
      overwritten.  (The base class' draw raises; the draw of a subclass is
      the user's, and this is what one that keeps to its rectangle does.  Pixels
      outside the image are dropped by PIL and are never looked at here.) *)
  Definition draw (s x y : Z) (at_ : Z -> Z -> Z) : Z -> Z -> Z :=
    fun px py =>
      if (x <=? px) && (px <? x + sp_w (look s)) && (y <=? py) && (py <? y + sp_h (look s))
      then sp_pix (look s) (px - x) (py - y)
      else at_ px py.

  (** grf.py:49-58: the loop; [i] is the enumerate index, [pos] the x and y
      attributes of every object.  lineofs[i // columns] may raise. *)
  Fixpoint place (l : list Z) (padding : Z) (columns : nat) (lineofs : list Z) (i : nat) (x : Z)
           (pos : Z -> option (Z * Z)) (at_ : Z -> Z -> Z)
    : option ((Z -> option (Z * Z)) * (Z -> Z -> Z)) :=
    match l with
    | [] => Some (pos, at_)
    | s :: r =>
        do y <- nth_error lineofs (i / columns);
        let x := if Nat.eqb (i mod columns) 0 then padding else x in
        place r padding columns lineofs (S i) (x + (sp_w (look s) + padding))
              (fun o => if o =? s then Some (x, y) else pos o)
              (draw s x y at_)
    end.

  (** grf.py:38-61.  columns = 0 makes range raise; columns < 0 is not
      modelled (the loop over range is then empty and the call raises as well,
      at lineofs[...] or in Image.new).  Image.new raises for a negative size.
      s.file is the file name for every sprite of the sheet and the image is
      saved under it.  The result is the attributes and the image. *)
  Definition make_image (l : list Z) (padding : Z) (columns : nat) (pos : Z -> option (Z * Z))
    : option ((Z -> option (Z * Z)) * image) :=
    do! (Nat.ltb 0 columns);
    let '(w, h, lineofs) := measure l padding columns in
    let w := w + (Z.of_nat columns + 1) * padding in
    do! ((0 <=? w) && (0 <=? h));
    do (pos, at_) <- place l padding columns lineofs 0 0 pos (fun _ _ => 255);
    Some (pos, mkImage w h at_).
End Sheet.
