(** Model of what the decompiler makes of the sounds and sprites of a file:
    grf/decompile.py:1264-1465, 1484-1562 (read, decompile), container
    version 2, with grf/grf.py:307-315.  Definitions only.

    The pseudo-sprites are given as records (type and data) and the bytes that
    follow them.  Left out: the statements of other actions and the comments
    about records (PyTextModel), the check of the data offset, what is printed
    on the console.  Recolour sprites (1541-1545) exist in container version 1
    only.  The image files are those of ExtractModel. *)
From Coq Require Import ZArith List Bool String.
From Verif Require Import Base CommonModel RecordsModel DecodeModel AnnounceModel ExtractModel ParserModel PyValue PyTextModel PyGraphicsModel.
Import ListNotations.
Open Scope string_scope.
Open Scope list_scope.
Open Scope Z_scope.

(** 1234, 1245, 1252: context.get_sprite_data(sprite_id)[0] *)
Definition kind_of (c : ctx) (i : Z) : skind :=
  match fst (get_sprite_data c i) with TGraphics => KGraphics | TSound => KSound | TDefault => KDefault end.
(** 1503-1507: until read_real_sprite returns None; each step takes at least
    nine bytes of the file, [n] is its length. *)
Fixpoint read_reals (n : nat) (kind : Z -> skind) (f : bytes) : option (list real_sprite) :=
  match n with
  | O => None
  | S n =>
      do o <- read_real_sprite kind f;
      match o with
      | None => Some []
      | Some (s, f) => do l <- read_reals n kind f; Some (s :: l)
      end
  end.
(** A sound: id, the file from its offset on, size, name. *)
Definition snd_sprite : Type := Z * bytes * Z * bytes.
Definition s_id (s : snd_sprite) : Z := fst (fst (fst s)).
(** 1504 and 1458-1460: real_sprites[sprite.id].append(sprite), then the
    sounds in the order of the two loops; RUnknown does not occur (kind_of). *)
Definition sprite_id (s : real_sprite) : Z := match s with RGraphics i _ _ => i | RSound i _ _ _ => i | RUnknown => 0 end.
Definition sounds (l : list real_sprite) : list snd_sprite :=
  flat_map (fun s => match s with RSound i pos n name => [(i, pos, n, name)] | _ => [] end) l.
Definition sounds_in_order (l : list real_sprite) : list snd_sprite :=
  flat_map (fun e => sounds (snd e)) (fold_left (fun d s => dict_append Z.eqb d (sprite_id s) s) l []).
(** The same sprites as the graphics code sees them (ExtractModel). *)
Definition reals (l : list real_sprite) : list real :=
  map (fun s => match s with RGraphics i pos g => RG (mk_gfx i pos g) | s => ROther (sprite_id s) end) l.
(** f.read(n) *)
Definition file_read (n : Z) (f : bytes) : option bytes :=
  if n =? -1 then Some f else if n <? 0 then None else Some (firstn (Z.to_nat n) f).
(** 1455-1465 save_sound_resources: files written (from the output directory)
    and the paths in the statements by id. *)
Fixpoint save_sounds (ascii : bytes -> bytes) (index : list bytes) (l : list snd_sprite) (out : list (Z * bytes))
  : option (list (bytes * bytes) * list (Z * bytes)) :=
  match l with
  | [] => Some ([], out)
  | (id, pos, size, name) :: r =>
      do (fname, index) <- gen_resource_name ascii index name (txt "wav") 100;
      do data <- file_read size pos;
      let path := RESOURCES ++ fname in
      do (files, out) <- save_sounds ascii index r (dict_set Z.eqb out id path);
      Some ((path, data) :: files, out)
  end.
(** 1092 and 1077: the ids of the placeholders in order. *)
Definition placeholders (records : list (Z * bytes)) : list Z :=
  flat_map (fun r => if fst r =? 253 then match rd_I (snd r) with Some (i, _) => [i] | None => [] end else []) records.
(** 1547-1554: what becomes of a placeholder; 1437 and 1465 write into the
    same dictionary, sounds after graphics. *)
Inductive gen := GPictures (l : list entry) | GSound (path : bytes) | GMissing (id : Z).
Definition resolve (table : list (Z * list entry)) (sounds : list (Z * bytes)) (id : Z) : gen :=
  match dict_get Z.eqb sounds id with
  | Some path => GSound path
  | None => match dict_get Z.eqb table id with Some l => GPictures l | None => GMissing id end
  end.
(** 1272-1324, 1465, actions.py:312-325 (PyComment, PyCode) *)
Definition gen_py (ctx : resources) (g : gen) : option (bytes * resources) :=
  match g with
  | GPictures l => graphics_py ctx l
  | GSound path => Some (txt "g.add(RAWSound('" ++ path ++ txt "'))", ctx)
  | GMissing id => Some (txt "# Failed to resolve sprite " ++ str_int id, ctx)
  end.
(** grf.py:307-315 *)
Fixpoint gens_program (ctx : resources) (l : list gen) : option bytes :=
  match l with
  | [] => Some []
  | g :: r =>
      do (t, ctx) <- gen_py ctx g;
      let code := PyTextModel.strip (dedent t) in
      do rest <- gens_program ctx r;
      Some (code ++ [10] ++ (if existsb (Z.eqb 10) code then [10] else []) ++ rest)
  end.
(** 1514-1562: image files, sound files, the statements. *)
Definition decompile (ascii : bytes -> bytes) (h1 : bytes -> Z) (h2 : Z -> Z -> Z -> Z) (records : list (Z * bytes)) (f : bytes)
  : option (list (bytes * file) * list (bytes * bytes) * bytes) :=
  do c <- read_records records new_ctx;
  do l <- read_reals (S (List.length f)) (kind_of c) f;
  do (images, table) <- extract h1 h2 2 c (reals l);
  do (wavs, out) <- save_sounds ascii [] (sounds_in_order l) [];
  do text <- gens_program [] (map (resolve table out) (placeholders records));
  Some (images, wavs, text).
