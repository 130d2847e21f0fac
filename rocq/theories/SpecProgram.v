(** Specification: a Python program of simple statements, and what the
    statements about pictures do.  SpecPython has the expressions. *)
From Coq Require Import ZArith List Bool String.
From Verif Require Import Base PyValue SpecPython DecodeModel ExtractModel SpecExtract.
Import ListNotations.
Open Scope string_scope.
Open Scope list_scope.
Open Scope Z_scope.

(** ** Programs *)

(** name = expression, or an expression. *)
Definition statement (n : nat) (s : bytes) : option ((option bytes * py) * bytes) :=
  let alone := do (e, r) <- expr n false s; Some ((None, e), r) in
  match name s with
  | Some (x, r) =>
      match ws false r with
      | 61 :: r => match r with 61 :: _ => None | _ => do (e, r) <- expr n false r; Some ((Some x, e), r) end
      | _ => alone
      end
  | None => alone
  end.
(** Statements on lines of their own, not indented, and lines that are blank
    but for a comment; [n] bounds the number of lines and the depth. *)
Fixpoint program (n : nat) (s : bytes) : option (list (option bytes * py)) :=
  match n with
  | O => None
  | S n =>
    match ws false s with
    | [] => Some []
    | 10 :: r => program n r
    | _ => match s with
           | 32 :: _ => None
           | _ => do (st, r) <- statement n s;
                  match ws false r with
                  | [] => Some [st]
                  | 10 :: r => do l <- program n r; Some (st :: l)
                  | _ => None
                  end
           end
    end
  end.
(** The text is the program. *)
Definition Program (s : bytes) (l : list (option bytes * py)) : Prop := exists n, program n s = Some l.

(** ** What the program does *)

(** A piece of an image file: path, x, y, width, height. *)
Definition piece : Type := bytes * Z * Z * Z * Z.
(** A picture: its piece, the offsets, the zoom level, a piece with the
    palette indices. *)
Record picture := mk_picture { pic_piece : piece; pic_xofs : Z; pic_yofs : Z; pic_zoom : Z; pic_mask : option piece }.

(** Names of the library with the values (grf/common.py:5) and parameters
    (grf/sprites.py:727, 759, 619) they have there. *)
Definition ZOOM_LEVELS : list (bytes * Z) :=
  map (fun e => (txt (fst e), snd e))
    [("ZOOM_NORMAL", 0); ("ZOOM_4X", 1); ("ZOOM_2X", 2); ("ZOOM_OUT_2X", 3); ("ZOOM_OUT_4X", 4); ("ZOOM_OUT_8X", 5)].
Definition pos (x : string) : param := (txt x, false, None).
Definition kw (x : string) (v : py) : param := (txt x, true, Some v).
Definition IMAGE_FILE : list param := [pos "path"; (txt "colourkey", false, Some YNone)].
Definition FILE_SPRITE : list param :=
  [pos "file"; pos "x"; pos "y"; pos "w"; pos "h"; kw "xofs" (YInt 0); kw "yofs" (YInt 0); kw "zoom" (YInt 0);
   kw "bpp" YNone; kw "crop" (YBool true); kw "name" YNone].
Definition WITH_MASK : list param :=
  [pos "sprite"; pos "mask"; (txt "name", false, Some YNone); (txt "mode", false, Some YNone)].
(** Names the statements must not redefine. *)
Definition RESERVED : list bytes := map fst ZOOM_LEVELS ++ map txt ["g"; "ImageFile"; "FileSprite"; "WithMask"].

Fixpoint zoom_level (x : bytes) (l : list (bytes * Z)) : option Z :=
  match l with [] => None | (y, v) :: r => if same x y then Some v else zoom_level x r end.
Definition number_value (e : py) : option Z :=
  match e with YInt n => Some n | YName x => zoom_level x ZOOM_LEVELS | _ => None end.
(** Variables and the files they stand for. *)
Definition env : Type := list (bytes * bytes).
Fixpoint variable (x : bytes) (v : env) : option bytes :=
  match v with [] => None | (y, p) :: r => if same x y then Some p else variable x r end.
Definition file_value (v : env) (e : py) : option bytes := match e with YName x => variable x v | _ => None end.
(** The arguments of a call of a name. *)
Definition called (f : string) (e : py) : option (list (bytes * py)) :=
  match e with YCall (YName x) args => if same x (txt f) then Some args else None | _ => None end.
Definition file_sprite (v : env) (e : py) : option picture :=
  do args <- called "FileSprite" e;
  do l <- call FILE_SPRITE args;
  match l with
  | [f; x; y; w; h; xo; yo; z; YNone; YBool true; YNone] =>
      do f <- file_value v f;
      do x <- number_value x; do y <- number_value y; do w <- number_value w; do h <- number_value h;
      do xo <- number_value xo; do yo <- number_value yo; do z <- number_value z;
      Some (mk_picture (f, x, y, w, h) xo yo z None)
  | _ => None
  end.
Definition picture_value (v : env) (e : py) : option picture :=
  match called "WithMask" e with
  | Some args =>
      do l <- call WITH_MASK args;
      match l with
      | [s; m; YNone; YNone] =>
          do s <- file_sprite v s;
          do m <- file_sprite v m;
          Some (mk_picture (pic_piece s) (pic_xofs s) (pic_yofs s) (pic_zoom s) (Some (pic_piece m)))
      | _ => None
      end
  | None => file_sprite v e
  end.
Fixpoint all_values {A} (f : py -> option A) (l : list py) : option (list A) :=
  match l with [] => Some [] | e :: r => do a <- f e; do b <- all_values f r; Some (a :: b) end.
(** g.add(...): the pictures added, each a sprite of its own (grf/grf.py:243-264). *)
Definition adds (v : env) (e : py) : option (list picture) :=
  match e with
  | YCall (YAttr (YName g) add) args =>
      do! (same g (txt "g") && same add (txt "add"));
      do! (match keywords args with [] => true | _ => false end);
      all_values (picture_value v) (positionals args)
  | _ => None
  end.
(** file = ImageFile(path) *)
Definition file_made (e : py) : option bytes :=
  do args <- called "ImageFile" e;
  do l <- call IMAGE_FILE args;
  match l with [YStr p; YNone] => Some p | _ => None end.
(** The pictures of each g.add; None: the program stops with an exception, or
    does something else. *)
Fixpoint run (v : env) (l : list (option bytes * py)) : option (list (list picture)) :=
  match l with
  | [] => Some []
  | (Some x, e) :: r =>
      do! (negb (existsb (same x) RESERVED));
      do p <- file_made e;
      run ((x, p) :: v) r
  | (None, e) :: r =>
      do a <- adds v e;
      do b <- run v r;
      Some (a :: b)
  end.

(** ** The picture a statement of the decompiler is about *)
Definition shown (e : entry) : option picture :=
  let s := f_s (e_sprite e) in
  let at_ f := (f, e_x e, e_y e, g_width s, g_height s) in
  let pic f m := Some (mk_picture (at_ f) (g_xofs s) (g_yofs s) (g_zoom s) m) in
  match e_colour e, e_mask e with
  | Some c, Some m => pic c (Some (at_ m))
  | Some c, None => pic c None
  | None, Some m => pic m None
  | None, None => None
  end.
Fixpoint all_shown (l : list entry) : option (list picture) :=
  match l with [] => Some [] | e :: r => do a <- shown e; do b <- all_shown r; Some (a :: b) end.
Fixpoint all_pictures (ls : list (list entry)) : option (list (list picture)) :=
  match ls with [] => Some [] | l :: r => do a <- all_shown l; do b <- all_pictures r; Some (a :: b) end.
(** Zoom levels are bytes, not negative. *)
Definition zooms (l : list real) : Prop := forall s, In (RG s) l -> 0 <= g_zoom (f_s s).
