(** Specification vocabulary for C63: what a file says about itself. *)
From Coq Require Import ZArith List Bool.
From Verif Require Import Base CommonModel RecordsModel Action14Model SpecAction14 HeaderModel.
Import ListNotations.
Open Scope Z_scope.

(** What the game reads for a text: a translation per language; a plain text
    is language 0. *)
Definition texts (t : text) : dval :=
  DList (match t with TStr s => [IText 0 s] | TRef ps _ => map (fun p => IText (fst p) (snd p)) ps end).
(** Binary data; numbers have four bytes, the lowest first. *)
Definition binary (b : bytes) : dval := DList [IBin b].
Definition number4 (n : Z) : dval := binary (le_bytes 4 n).
Definition maybe {A} (k : bytes) (f : A -> dval) (v : option A) : ddict := match v with Some v => [(k, f v)] | None => [] end.

(** The parameters in the order they were added. *)
Inductive parameter :=
| Bool (name desc : text) (default : option bool)
| Int (name desc : text) (default : option Z) (limits : option (Z * Z)) (enum : option (list (Z * text))).
Definition parameter_dict (p : parameter) : ddict :=
  match p with
  | Bool name desc default =>
      [(NAME, texts name); (DESC, texts desc); (TYPE, binary [1])]
      ++ maybe DFLT (fun b : bool => number4 (if b then 1 else 0)) default
  | Int name desc default limits enum =>
      [(NAME, texts name); (DESC, texts desc); (TYPE, binary [0])]
      ++ maybe DFLT number4 default
      ++ maybe LIMI (fun l => binary (le_bytes 4 (fst l) ++ le_bytes 4 (snd l))) limits
      ++ maybe VALU (fun e => DDict (map (fun x => (le_bytes 4 (fst x), texts (snd x))) e)) enum
  end.
(** Parameter i has the tag i. *)
Fixpoint parameter_dicts (i : Z) (ps : list parameter) : ddict :=
  match ps with [] => [] | p :: ps => (le_bytes 4 i, DDict (parameter_dict p)) :: parameter_dicts (i + 1) ps end.
(** The whole of Action 14. *)
Definition described (a : args) (ps : list parameter) : ddict :=
  [(INFO, DDict ([(PALS, binary [68]); (NAME, texts (g_name a)); (DESC, texts (g_desc a))]
     ++ maybe BLTR binary (g_blitter a) ++ maybe VRSN number4 (g_version a) ++ maybe MINV number4 (g_minv a)
     ++ maybe URL_ (fun u => texts (TStr u)) (g_url a)
     ++ match ps with [] => [] | _ => [(NPAR, binary [len ps]); (PARA, DDict (parameter_dicts 0 ps))] end))].

(** The parameters, the cargo table and the railtypes a script asked for. *)
Definition asked_parameters (cs : list call) : list parameter :=
  flat_map (fun c => match c with CBool n d f => [Bool n d f] | CInt n d f l e => [Int n d f l e] | _ => [] end) cs.
Definition asked_cargo (cs : list call) : option (list bytes) :=
  fold_left (fun r c => match c with CCargo l => Some l | _ => r end) cs None.
Definition asked_rails (cs : list call) : list (list bytes) :=
  flat_map (fun c => match c with CRail l => [l] | _ => [] end) cs.

(** Values that can be written. *)
Definition fine_text (t : text) : Prop :=
  match t with
  | TStr s => ~ In 0 s
  | TRef ps d => ps <> [] /\ Forall (fun p => text_ok (fst p) (snd p)) ps /\ ~ In 0 d
  end.
Definition fine_number (n : Z) : Prop := 0 <= n < 2 ^ 32.
Definition all {A} (P : A -> Prop) (v : option A) : Prop := match v with Some v => P v | None => True end.
Definition NewGRF_BLITTER_BPP_8 : bytes := [56]. (* '8' *)
Definition NewGRF_BLITTER_BPP_32 : bytes := [51]. (* '3' *)
Definition fine_args (a : args) : Prop :=
  length (g_grfid a) = 4%nat /\ fine_text (g_name a) /\ fine_text (g_desc a) /\ all fine_number (g_version a) /\ all fine_number (g_minv a)
  /\ 0 <= g_format a < 256 /\ all (fun u => ~ In 0 u) (g_url a) /\ all (fun b => b = NewGRF_BLITTER_BPP_8 \/ b = NewGRF_BLITTER_BPP_32) (g_blitter a).
Definition fine_parameter (p : parameter) : Prop :=
  match p with
  | Bool n d _ => fine_text n /\ fine_text d
  | Int n d f l e => fine_text n /\ fine_text d /\ all fine_number f /\ all (fun l => fine_number (fst l) /\ fine_number (snd l)) l
      /\ all (fun e => NoDup (map fst e) /\ Forall (fun x => fine_number (fst x) /\ fine_text (snd x)) e) e
  end.
(** Labels have four bytes; a table at most 255 different ones. *)
Definition fine_cargo (l : list bytes) : Prop := Forall (fun c => length c = 4%nat) l /\ NoDup l /\ len l <= 255.
(** Lists of railtype labels as in C39. *)
Definition fine_rails (ls : list (list bytes)) : Prop :=
  Forall (fun l => l <> [] /\ len l <= 129 /\ Forall (fun x => length x = 4%nat) l) ls /\ NoDup (map (hd []) ls)
  /\ len ls <= 255 /\ len (filter (fun l => negb (len l =? 1)) ls) <= 128.
Definition fine_calls (cs : list call) : Prop :=
  Forall fine_parameter (asked_parameters cs) /\ len (asked_parameters cs) <= 255
  /\ (forall l, In (CCargo l) cs -> fine_cargo l) /\ fine_rails (asked_rails cs).
