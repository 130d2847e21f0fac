(** Specification: programs that add pictures and sounds, and what a program
    made from a file should add.  SpecProgram has programs and pictures. *)
From Coq Require Import ZArith List Bool String.
From Verif Require Import Base PyValue SpecPython DecodeModel ExtractModel SpecExtract SpecProgram.
Import ListNotations.
Open Scope string_scope.
Open Scope list_scope.
Open Scope Z_scope.

(** ** What the program does *)

(** grf/sprites.py:809 *)
Definition RAW_SOUND : list param := [pos "file"].
(** Something g.add was called with: pictures, or a sound by its path. *)
Inductive addition := Pictures (l : list picture) | Sound (path : bytes).
Definition sound_value (e : py) : option bytes :=
  do args <- called "RAWSound" e;
  do l <- call RAW_SOUND args;
  match l with [YStr p] => Some p | _ => None end.
Definition added (v : env) (e : py) : option addition :=
  match e with
  | YCall (YAttr (YName g) add) [([], a)] =>
      match sound_value a with
      | Some p => if same g (txt "g") && same add (txt "add") then Some (Sound p) else None
      | None => do l <- adds v e; Some (Pictures l)
      end
  | _ => do l <- adds v e; Some (Pictures l)
  end.
(** Names the statements must not redefine. *)
Definition KEPT : list bytes := txt "RAWSound" :: RESERVED.
(** What each g.add adds; None: the program stops with an exception, or does
    something else. *)
Fixpoint execute (v : env) (l : list (option bytes * py)) : option (list addition) :=
  match l with
  | [] => Some []
  | (Some x, e) :: r =>
      do! (negb (existsb (same x) KEPT));
      do p <- file_made e;
      execute ((x, p) :: v) r
  | (None, e) :: r =>
      do a <- added v e;
      do b <- execute v r;
      Some (a :: b)
  end.

(** ** What it should do *)

(** The file at [path] is the one written last. *)
Fixpoint contents (path : bytes) (files : list (bytes * bytes)) : option bytes :=
  match files with
  | [] => None
  | (p, f) :: r => match contents path r with Some g => Some g | None => if list_eq_dec Z.eq_dec p path then Some f else None end
  end.
(** The sounds of the file with id [i]: the bytes from where their data begins,
    their size, in order. *)
Definition sounds_of (i : Z) (l : list real_sprite) : list (bytes * Z) :=
  flat_map (fun s => match s with RSound j p n _ => if j =? i then [(p, n)] else [] | _ => [] end) l.
(** The additions for the places [ids] of a file with the real sprites [l], of
    which the pictures drawn are those of [table]. *)
Inductive shows (l : list real_sprite) (table : list (Z * list entry)) (wavs : list (bytes * bytes)) : list Z -> list addition -> Prop :=
| S_end : shows l table wavs [] []
| S_sound : forall i ids adds path before p n, sounds_of i l = before ++ [(p, n)] -> contents path wavs = Some (firstn (Z.to_nat n) p) ->
    shows l table wavs ids adds -> shows l table wavs (i :: ids) (Sound path :: adds)
| S_pictures : forall i ids adds pics, sounds_of i l = [] -> statements table i <> [] -> map Some pics = map shown (statements table i) ->
    shows l table wavs ids adds -> shows l table wavs (i :: ids) (Pictures pics :: adds)
| S_nothing : forall i ids adds, sounds_of i l = [] -> statements table i = [] ->
    shows l table wavs ids adds -> shows l table wavs (i :: ids) adds.
