(** Model of Translations (Action 13): grf/actions.py:2364-2397,
    grf/decompile.py:923-937.  Definitions only. *)
From Coq Require Import ZArith List Bool.
From Verif Require Import Base CommonModel RecordsModel.
Import ListNotations.
Open Scope Z_scope.

Record translations := mkTr { t_grfid : bytes; t_lang : Z; t_offset : Z; t_strings : list bytes }.

(** actions.py:2367-2381 __init__.  The parameter list has no [strings], and the
    module has no such name: the loop at 2376 raises NameError. *)
Definition new_translations (grfid : bytes) (offset : Z) (lang : Z) : option translations :=
  do! ((53248 <=? offset) && (offset <=? 56320));
  None.

(** actions.py:2383-2387 get_data, of an object with these attributes. *)
Definition translations_data (t : translations) : option bytes :=
  concat_opt [Some [19]; Some (t_grfid t); pack_B (t_lang t); pack_B (len (t_strings t)); pack_H (t_offset t);
              Some (join0 (t_strings t) ++ [0])].

(** decompile.py:923-930: the fields read from the record (without its first byte). *)
Definition read_fields (d : bytes) : option translations :=
  do lang <- nth_error d 4;
  do _ <- nth_error d 5;
  do (offset, _) <- rd_H (skipn 6 d);
  let str_data := skipn 8 d in
  Some (mkTr (firstn 4 d) lang offset (match str_data with [] => [] | _ => split0 str_data end)).
(** 932-937: grf.Transtations does not exist: AttributeError. *)
Definition decode_action13 (d : bytes) : option translations :=
  do _ <- read_fields d; None.
