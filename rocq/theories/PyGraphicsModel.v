(** Model of the Python text of the graphics of a decompiled file:
    grf/decompile.py:1264-1324 GraphicsSpriteGen and its use in
    grf/grf.py:307-315 generate_python.  Definitions only.

    Text is a list of character codes (PyTextModel).  Simplification: paths of
    files are not empty (they start with the name of the directory, 1419-1432).
    The text generate_python writes before the statements (imports, g) and the
    statements of other generators are left out; PyTextModel has them. *)
From Coq Require Import ZArith List Bool String.
From Verif Require Import Base CommonModel RecordsModel DecodeModel AnnounceModel ExtractModel ParserModel PyValue PyTextModel.
Import ListNotations.
Open Scope string_scope.
Open Scope list_scope.
Open Scope Z_scope.

(** grf.py: PythonGenerationContext().resources: path -> variable *)
Definition resources : Type := list (bytes * bytes).

(** path[path.rfind('/') + 1:] *)
Fixpoint last_part (s : bytes) : bytes :=
  match s with
  | [] => []
  | c :: r => if existsb (Z.eqb 47) s then last_part r else s
  end.
(** 1282: .replace('.', '_') *)
Definition file_var (path : bytes) : bytes := map (fun c => if c =? 46 then 95 else c) (last_part path).
(** 1275-1284 make_file_var: the text added to res *)
Definition make_file_var (path : option bytes) (st : bytes * resources) : bytes * resources :=
  match path with
  | None => st
  | Some path =>
      let '(res, ctx) := st in
      match dict_get bytes_eq ctx path with
      | Some _ => (res, ctx)
      | None => let v := file_var path in
                (res ++ v ++ txt " = ImageFile('" ++ path ++ txt "')" ++ [10], dict_set bytes_eq ctx path v)
      end
  end.
(** 1298-1301: l[zoom] of a list of 6, or str(zoom) where that raises *)
Definition ZOOM_NAMES : list bytes :=
  map txt ["ZOOM_NORMAL"; "ZOOM_4X"; "ZOOM_2X"; "ZOOM_OUT_2X"; "ZOOM_OUT_4X"; "ZOOM_OUT_8X"].
Definition zoom_str (z : Z) : bytes :=
  if (0 <=? z) && (z <? 6) then nth (Z.to_nat z) ZOOM_NAMES []
  else if (-6 <=? z) && (z <? 0) then nth (Z.to_nat (z + 6)) ZOOM_NAMES []
  else str_int z.
(** 1302 and 1305 *)
Definition place_str (var : bytes) (x y w h : Z) : bytes :=
  txt "FileSprite(" ++ var ++ txt ", " ++ str_int x ++ txt ", " ++ str_int y ++ txt ", " ++ str_int w ++ txt ", " ++ str_int h.
Definition sprite_str (var : bytes) (x y : Z) (s : gsprite) : bytes :=
  place_str var x y (g_width s) (g_height s) ++ txt ", xofs=" ++ str_int (g_xofs s) ++ txt ", yofs=" ++ str_int (g_yofs s)
    ++ txt ", zoom=" ++ zoom_str (g_zoom s) ++ txt ")".
(** 1290-1311: the lines of sprite_sl for one sprite; None: KeyError *)
Definition sprite_lines (ctx : resources) (e : entry) : option (list bytes) :=
  let '(s, x, y, m_path, rgba_path) := e in
  match rgba_path, m_path with
  | None, None => Some [txt "EMPTY_SPRITE"]
  | Some r, Some m =>
      do v <- dict_get bytes_eq ctx r;
      do u <- dict_get bytes_eq ctx m;
      Some [txt "WithMask("; txt "    " ++ sprite_str v x y (f_s s);
            txt "    " ++ place_str u x y (g_width (f_s s)) (g_height (f_s s)) ++ txt ")"; txt ")"]
  | Some p, None | None, Some p =>
      do v <- dict_get bytes_eq ctx p;
      Some [sprite_str v x y (f_s s)]
  end.
Fixpoint all_lines (ctx : resources) (l : list entry) : option (list bytes) :=
  match l with
  | [] => Some []
  | e :: r => do a <- sprite_lines ctx e; do b <- all_lines ctx r; Some (a ++ b)
  end.
(** s.endswith('(') *)
Definition ends_open (s : bytes) : bool := match rev s with 40 :: _ => true | _ => false end.
(** 1313-1322; None: IndexError *)
Definition add_text (sprite_sl : list bytes) : option bytes :=
  match sprite_sl with
  | [] => None
  | [s] => Some (txt "g.add(" ++ s ++ txt ")")
  | _ => Some (txt "g.add(" ++ [10] ++
               flat_map (fun s => txt "    " ++ s ++ (if ends_open s then [] else [44]) ++ [10]) sprite_sl ++ txt ")")
  end.
(** 1272-1324 py *)
Definition graphics_py (ctx : resources) (l : list entry) : option (bytes * resources) :=
  let '(res, ctx) := fold_left (fun st e => let '(_, m_path, rgba_path) := e in make_file_var rgba_path (make_file_var m_path st)) l ([], ctx) in
  do sl <- all_lines ctx l;
  do t <- add_text sl;
  Some (res ++ t, ctx).
(** grf.py:307-315 for a list of such generators: their statements *)
Fixpoint graphics_program (ctx : resources) (ls : list (list entry)) : option bytes :=
  match ls with
  | [] => Some []
  | l :: r =>
      do (t, ctx) <- graphics_py ctx l;
      let code := strip (dedent t) in
      do rest <- graphics_program ctx r;
      Some (code ++ [10] ++ (if existsb (Z.eqb 10) code then [10] else []) ++ rest)
  end.
