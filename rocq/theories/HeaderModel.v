(** Model of what NewGRF itself writes (grf/grf.py:869-912, 950-996,
    1047-1082): properties, description, parameters, cargo table.
    Definitions only.

    Names and descriptions are str or StringRef; a bytes name would be written
    as a binary chunk. *)
From Coq Require Import ZArith List Bool String.
From Verif Require Import Base RecordsModel Action14Model PropModel Action0Model RailtypeModel.
Import ListNotations.
Open Scope string_scope.
Open Scope list_scope.
Open Scope Z_scope.

(** A str (its utf-8 bytes), or a StringRef: its get_pairs() and get_default()
    (grf/strings.py:403-414). *)
Inductive text := TStr (t : bytes) | TRef (pairs : list (Z * bytes)) (default : bytes).
Definition text_val (t : text) : pval := match t with TStr t => PStr t | TRef ps _ => PPairs ps end.
(** 977-978. *)
Definition text_default (t : text) : bytes := match t with TStr t => t | TRef _ d => d end.

(** Four-letter keys. *)
Definition INFO : bytes := [73; 78; 70; 79].
Definition PALS : bytes := [80; 65; 76; 83].
Definition NAME : bytes := [78; 65; 77; 69].
Definition DESC : bytes := [68; 69; 83; 67].
Definition BLTR : bytes := [66; 76; 84; 82].
Definition VRSN : bytes := [86; 82; 83; 78].
Definition MINV : bytes := [77; 73; 78; 86].
Definition URL_ : bytes := [85; 82; 76; 95].
Definition NPAR : bytes := [78; 80; 65; 82].
Definition PARA : bytes := [80; 65; 82; 65].
Definition TYPE : bytes := [84; 89; 80; 69].
Definition DFLT : bytes := [68; 70; 76; 84].
Definition LIMI : bytes := [76; 73; 77; 73].
Definition VALU : bytes := [86; 65; 76; 85].

Definition pkey_eqb (a b : pkey) : bool :=
  match a, b with KRaw a, KRaw b => bytes_eqb a b | KInt a, KInt b => a =? b | _, _ => false end.
Definition pdict : Type := list (pkey * pval).
Definition put (d : pdict) (k : bytes) (v : pval) : pdict := dict_set pkey_eqb d (KRaw k) v.
Definition put_if (d : pdict) (k : bytes) (v : option pval) : pdict := match v with Some v => put d k v | None => d end.

(** The arguments of NewGRF(...). *)
Record args := mk_args { g_grfid : bytes; g_name : text; g_desc : text; g_version : option Z; g_minv : option Z;
                         g_format : Z; g_url : option bytes; g_blitter : option bytes }.
(** Its state: _props['INFO'], _params, _cargo_table, _railtype_table; the
    arguments do not change. *)
Record newgrf := mk_newgrf { n_args : args; n_info : pdict; n_params : list pdict; n_cargo : option (list (bytes * Z)); n_rails : option rtable }.

(** 873-912 __init__; BLITTER_BPP_8 = b'8', BLITTER_BPP_32 = b'3'. *)
Definition new_grf (a : args) : option newgrf :=
  do! (len (g_grfid a) =? 4);
  let info := [(KRaw PALS, PBytes [68]); (KRaw NAME, text_val (g_name a)); (KRaw DESC, text_val (g_desc a))] in
  do! (match g_blitter a with Some b => bytes_eqb b [56] || bytes_eqb b [51] | None => true end);
  let info := put_if info BLTR (option_map PBytes (g_blitter a)) in
  let info := put_if info VRSN (option_map PInt (g_version a)) in
  let info := put_if info MINV (option_map PInt (g_minv a)) in
  let info := put_if info URL_ (option_map PStr (g_url a)) in
  Some (mk_newgrf a info [] None None).

Definition add_param (g : newgrf) (p : pdict) : newgrf := mk_newgrf (n_args g) (n_info g) (n_params g ++ [p]) (n_cargo g) (n_rails g).
(** 1047-1057 add_bool_parameter. *)
Definition add_bool_parameter (g : newgrf) (name desc : text) (default : option bool) : newgrf :=
  let data := [(KRaw NAME, text_val name); (KRaw DESC, text_val desc); (KRaw TYPE, PBytes [1])] in
  add_param g (put_if data DFLT (option_map (fun b : bool => PInt (if b then 1 else 0)) default)).
(** 1059-1082 add_int_parameter; [enum] is a dict. *)
Definition add_int_parameter (g : newgrf) (name desc : text) (default : option Z) (limits : option (Z * Z)) (enum : option (list (Z * text)))
  : option newgrf :=
  let data := [(KRaw NAME, text_val name); (KRaw DESC, text_val desc); (KRaw TYPE, PBytes [0])] in
  let data := put_if data DFLT (option_map PInt default) in
  do data <- (match limits with
              | None => Some data
              | Some (lo, hi) => do a <- pack_I lo; do b <- pack_I hi; Some (put data LIMI (PBytes (a ++ b)))
              end);
  Some (add_param g (put_if data VALU (option_map (fun e => PDict (map (fun x => (KInt (fst x), text_val (snd x))) e)) enum))).

(** 950-954 set_cargo_table: the new state and the ids. *)
Fixpoint number (i : Z) (t : list (bytes * Z)) (l : list bytes) : list (bytes * Z) :=
  match l with [] => t | c :: l => number (i + 1) (dict_set bytes_eqb t c i) l end.
Definition set_cargo_table (g : newgrf) (l : list bytes) : newgrf * list Z :=
  (mk_newgrf (n_args g) (n_info g) (n_params g) (Some (number 0 [] l)) (n_rails g), map Z.of_nat (seq 0 (List.length l))).
(** 956-960 get_cargo_id. *)
Definition get_cargo_id (g : newgrf) (c : bytes) : option Z := do t <- n_cargo g; dict_get bytes_eqb t c.
(** 962-965 map_cargo_labels. *)
Fixpoint ids_of (t : list (bytes * Z)) (l : list bytes) : option (list Z) :=
  match l with [] => Some [] | c :: l => do i <- dict_get bytes_eqb t c; do r <- ids_of t l; Some (i :: r) end.
Definition map_cargo_labels (g : newgrf) (l : list bytes) : option bytes :=
  do t <- n_cargo g; do ids <- ids_of t l; mk_bytes ids.

(** 919-936 add_railtype. *)
Definition add_rail (g : newgrf) (l : list bytes) : option (newgrf * Z) :=
  do (t, i) <- add_railtype (match n_rails g with Some t => t | None => [] end) l;
  Some (mk_newgrf (n_args g) (n_info g) (n_params g) (n_cargo g) (Some t), i).

(** 969-972: _props['INFO']['PARA'][i] = p. *)
Fixpoint numbered (i : Z) (ps : list pdict) : pdict :=
  match ps with [] => [] | p :: ps => (KInt i, PDict p) :: numbered (i + 1) ps end.
(** 967-996 generate_sprites, without super().generate_sprites(): the state
    after it (_props is changed in place) and the records. *)
Definition header (g : newgrf) : option (newgrf * list bytes) :=
  do info <- (match n_params g with
              | [] => Some (n_info g)
              | ps => do n <- mk_bytes [len ps]; Some (put (put (n_info g) NPAR (PBytes n)) PARA (PDict (numbered 0 ps)))
              end);
  let g' := mk_newgrf (n_args g) info (n_params g) (n_cargo g) (n_rails g) in
  do props <- action14_data [(KRaw INFO, PDict info)];
  let a := n_args g in
  do desc <- action8_data (mkA8 (g_format a) (g_grfid a) (text_default (g_name a)) (text_default (g_desc a)));
  do cargo <- (match n_cargo g with
               | None => Some []
               | Some t => do r <- define_data (mkDef 8 0 (len t) [("cargo_table", map (fun e => VBytes (fst e)) t)]); Some [r]
               end);
  do rails <- (match n_rails g with None => Some [] | Some t => railtype_actions t end);
  Some (g', [props; desc] ++ cargo ++ rails).

(** A script: calls on one NewGRF, any number of writes among them. *)
Inductive call :=
| CBool (name desc : text) (default : option bool)
| CInt (name desc : text) (default : option Z) (limits : option (Z * Z)) (enum : option (list (Z * text)))
| CCargo (l : list bytes)
| CRail (l : list bytes)
| CWrite.
Definition do_call (g : newgrf) (c : call) : option newgrf :=
  match c with
  | CBool n d f => Some (add_bool_parameter g n d f)
  | CInt n d f l e => add_int_parameter g n d f l e
  | CCargo l => Some (fst (set_cargo_table g l))
  | CRail l => do (g, _) <- add_rail g l; Some g
  | CWrite => do (g, _) <- header g; Some g
  end.
Fixpoint do_calls (g : newgrf) (cs : list call) : option newgrf :=
  match cs with [] => Some g | c :: cs => do g <- do_call g c; do_calls g cs end.
