(** Model of what running a printed statement makes: the constructors of
    grf/actions.py called with the arguments the text gives.  Definitions only.

    The checks of the constructors read only the arguments and are passed by
    the action that was printed; they are not repeated here.  References stay
    expressions, and the entries of the dicts of references stay as written:
    looking names up and merging equal keys is GenPyModel.eval_args. *)
From Coq Require Import ZArith List Bool String.
From Verif Require Import Base CommonModel RecordsModel Action14Model GenPyModel PyValue SpecPython PyTextModel.
Import ListNotations.
Open Scope string_scope.
Open Scope list_scope.
Open Scope Z_scope.

(** ** Values *)
Fixpoint index (x : bytes) (l : list bytes) : option Z :=
  match l with
  | [] => None
  | y :: r => if same x y then Some 0 else do n <- index x r; Some (1 + n)
  end.
(** common.py:148-173 *)
Definition as_feature (v : py) : option Z := match v with YName x => index x FEATURE_CONSTANTS | _ => None end.
Definition as_opt {A} (f : py -> option A) (v : py) : option (option A) :=
  match v with YNone => Some None | _ => do x <- f v; Some (Some x) end.
(** The constants of common.py:8-9 and |. *)
Definition CLIMATES : list (bytes * Z) :=
  [(txt "NO_CLIMATE", 0); (txt "ALL_CLIMATES", 15); (txt "TEMPERATE", 1); (txt "ARCTIC", 2); (txt "TROPICAL", 4); (txt "TOYLAND", 8)].
Fixpoint find_const (x : bytes) (l : list (bytes * Z)) : option Z :=
  match l with [] => None | (y, n) :: r => if same x y then Some n else find_const x r end.
Fixpoint as_int (v : py) : option Z :=
  match v with
  | YInt n => Some n
  | YAttr (YName g) x => if same g (txt "grf") then find_const x CLIMATES else None
  | YOr a b => do x <- as_int a; do y <- as_int b; Some (Z.lor x y)
  | _ => None
  end.
Definition as_bool (v : py) : option bool := match v with YBool b => Some b | _ => None end.
Definition as_bytes (v : py) : option bytes := match v with YBytes b => Some b | _ => None end.
Definition as_text (v : py) : option bytes := match v with YStr s | YText s => Some s | _ => None end.
Fixpoint map_o {A B} (f : A -> option B) (l : list A) : option (list B) :=
  match l with [] => Some [] | a :: r => do b <- f a; do s <- map_o f r; Some (b :: s) end.
Definition as_list {A} (f : py -> option A) (v : py) : option (list A) := match v with YList l => map_o f l | _ => None end.
Definition as_tuple {A} (f : py -> option A) (v : py) : option (list A) := match v with YTuple l => map_o f l | _ => None end.
Definition as_entries {K V} (k : py -> option K) (f : py -> option V) (v : py) : option (list (K * V)) :=
  match v with
  | YDict l => map_o (fun e => do x <- k (fst e); do y <- f (snd e); Some (x, y)) l
  | _ => None
  end.
(** A dict: the last of equal keys counts. *)
Definition as_dict {V} (k : py -> option bytes) (f : py -> option V) (v : py) : option (list (bytes * V)) :=
  do l <- as_entries k f v; Some (dict_of same l).
(** A property value: numbers with names are numbers. *)
Definition as_pvalue (v : py) : option pvalue :=
  match v with
  | YAttr _ _ | YOr _ _ => do n <- as_int v; Some (VRepr (YInt n))
  | _ => Some (VRepr v)
  end.
Definition as_expr (v : py) : option GenPyModel.expr :=
  match v with
  | YName x => Some (EName x)
  | YInt n => Some (EInt n)
  | YCall (YName f) [([], a)] =>
      if same f (txt "Ref") then match a with YInt n => Some (ERef (Some n)) | YNone => Some (ERef None) | _ => None end
      else if same f (txt "CB") then match a with YInt n => Some (ECB n) | _ => None end
      else None
  | _ => None
  end.
(** 1713-1720: a tuple is a range. *)
Definition as_key (v : py) : option key :=
  match v with YInt n => Some (KOne n) | YTuple [YInt l; YInt h] => Some (KTwo l h) | _ => None end.
Definition as_patch (v : py) : option patch6 :=
  do d <- as_dict as_text as_int v;
  do n <- find_const (txt "num") d; do s <- find_const (txt "size") d; do o <- find_const (txt "offset") d;
  Some (n, s, o).
Definition as_pair (v : py) : option (Z * Z) := match v with YTuple [YInt a; YInt b] => Some (a, b) | _ => None end.
Definition as_msg (v : py) : option msg := match v with YInt n => Some (MBuiltin n) | YBytes b => Some (MText b) | _ => None end.
Definition as_if_value (v : py) : option if_value := match v with YInt n => Some (IVInt n) | YBytes b => Some (IVBytes b) | _ => None end.
Definition as_d_value (v : py) : option d_value := match v with YNone => Some DVNone | YInt n => Some (DVNum n) | YBytes b => Some (DVRaw b) | _ => None end.
Definition as_item (v : py) : option ditem :=
  match v with YBytes b => Some (IBin b) | YTuple [YInt l; YBytes t] => Some (IText l t) | _ => None end.
Fixpoint as_dval (v : py) : option dval :=
  match v with
  | YDict l => do l <- (fix go (l : list (py * py)) : option (list (bytes * dval)) :=
                          match l with
                          | [] => Some []
                          | (k, v) :: r => do k <- as_bytes k; do v <- as_dval v; do r <- go r; Some ((k, v) :: r)
                          end) l; Some (DDict (dict_of same l))
  | YList l => do l <- map_o as_item l; Some (DList l)
  | _ => None
  end.

(** ** Constructors *)
Definition pos (x : string) : param := (txt x, false, None).
Definition kw (x : string) : param := (txt x, true, None).
Definition kwd (x : string) (v : py) : param := (txt x, true, Some v).

(** The signatures. *)
Inductive class := CDefine | CDefineMultiple | CAction1 | CSpriteSet | CGenericSpriteLayout | CBasicSpriteLayout | CAdvancedSpriteLayout | CSwitch | CRandomSwitch | CIndustryProductionCallback | CAction3 | CDefineStrings | CReplaceNewSprites | CModifySprites | CIf | CSetDescription | CReplaceOldSprites | CErrorMessage | CComment | CComputeParameters | CLabel | CSoundEffects | CImportSound | CSetProperties.
Definition SIGNATURES : list (string * class * list param) :=
  [ (* 1464 *) ("Define", CDefine, [kw "feature"; kw "id"; kw "props"]);
    (* 1361 *) ("DefineMultiple", CDefineMultiple, [kw "feature"; kw "first_id"; kw "props"; kwd "count" YNone]);
    (* 1485 *) ("Action1", CAction1, [pos "feature"; pos "set_count"; pos "sprite_count"; kwd "first_set" YNone]);
    (* 1518 *) ("SpriteSet", CSpriteSet, [pos "feature"; pos "count"]);
    (* 1533-1540 *) ("GenericSpriteLayout", CGenericSpriteLayout, [kw "ent1"; kw "ent2"; kwd "feature" YNone; kwd "ref_id" YNone]);
    (* 1575 *) ("BasicSpriteLayout", CBasicSpriteLayout, [kw "ground"; kw "building"; kwd "feature" YNone; kwd "ref_id" YNone]);
    (* 1601 *) ("AdvancedSpriteLayout", CAdvancedSpriteLayout, [kw "ground"; kwd "feature" YNone; kwd "ref_id" YNone; kwd "buildings" (YTuple []); kwd "has_flags" (YBool true)]);
    (* 1703 *) ("Switch", CSwitch, [pos "code"; pos "ranges"; pos "default"; kwd "feature" YNone; kwd "ref_id" YNone; kwd "related_scope" (YBool false); kwd "subroutines" YNone]);
    (* 1835 *) ("RandomSwitch", CRandomSwitch, [kw "scope"; kw "triggers"; kw "cmp_all"; kw "lowest_bit"; kw "groups"; kwd "count" YNone; kwd "feature" YNone; kwd "ref_id" YNone]);
    (* 1886 *) ("IndustryProductionCallback", CIndustryProductionCallback, [kw "inputs"; kw "outputs"; kw "do_again"; kwd "version" (YInt 2)]);
    (* 1936 *) ("Action3", CAction3, [kw "feature"; kw "ids"; kw "maps"; kw "default"; kwd "wagon_override" (YBool false)]);
    (* 2020 *) ("DefineStrings", CDefineStrings, [kw "feature"; kw "offset"; kw "is_generic_offset"; kw "strings"; kwd "lang" (YInt 127)]);
    (* 2071 *) ("ReplaceNewSprites", CReplaceNewSprites, [pos "set_type"; pos "count"; kwd "offset" YNone]);
    (* 2092 *) ("ModifySprites", CModifySprites, [pos "params"]);
    (* 2111 *) ("If", CIf, [kw "is_static"; kw "variable"; kw "condition"; kw "value"; kw "skip"; kwd "varsize" YNone]);
    (* 2151 *) ("SetDescription", CSetDescription, [kw "grfid"; kw "name"; kw "description"; kwd "format_version" (YInt 8)]);
    (* 2194 *) ("ReplaceOldSprites", CReplaceOldSprites, [pos "sets"]);
    (* 2215 *) ("ErrorMessage", CErrorMessage, [kw "severity"; kw "lang"; kw "message"; kwd "text_param" YNone; kwd "params" YNone]);
    (* 2254 *) ("Comment", CComment, [pos "data"]);
    (* 2269 *) ("ComputeParameters", CComputeParameters, [kw "target"; kw "operation"; kw "if_undefined"; kw "source1"; kw "source2"; kwd "value" YNone]);
    (* 2308 *) ("Label", CLabel, [pos "label"; pos "comment"]);
    (* 2325 *) ("SoundEffects", CSoundEffects, [pos "count"]);
    (* 2337 *) ("ImportSound", CImportSound, [pos "grfid"; pos "number"]);
    (* 2403 *) ("SetProperties", CSetProperties, [pos "props"]) ].

(** What each constructor makes of the values of its parameters. *)
Definition make (cls : class) (l : list py) : option paction :=
  match cls, l with
  | CDefine, [f; i; p] =>
      do f <- as_feature f; do i <- as_int i; do p <- as_dict as_text as_pvalue p; Some (PDefine f i p)
  | CDefineMultiple, [f; i; p; c] =>
      do f <- as_feature f; do i <- as_int i; do p <- as_dict as_text (as_list as_pvalue) p; do c <- as_int c;
      Some (PDefineMultiple f i c p)
  | CAction1, [f; sc; n; fs] =>
      do f <- as_feature f; do sc <- as_int sc; do n <- as_int n; do fs <- as_opt as_int fs; Some (PAction1 (mkA1 f sc n fs))
  | CSpriteSet, [f; n] => do f <- as_feature f; do n <- as_int n; Some (PSpriteSet f n)
  | CGenericSpriteLayout, [e1; e2; f; r] =>
      do f <- as_opt as_feature f; do r <- as_opt as_int r; do e1 <- as_tuple as_int e1; do e2 <- as_tuple as_int e2; Some (PGeneric f r e1 e2)
  | CBasicSpriteLayout, [g; b; f; r] => do f <- as_opt as_feature f; do r <- as_opt as_int r; Some (PBasic f r g b)
  | CAdvancedSpriteLayout, [g; f; r; b; _] => do f <- as_opt as_feature f; do r <- as_opt as_int r; Some (PAdvanced f r g b)
  | CSwitch, [c; rs; d; f; r; rel; YNone] =>
      do c <- as_text c; do rs <- as_entries as_key as_expr rs; do d <- as_expr d;
      do f <- as_opt as_feature f; do r <- as_opt as_int r; do rel <- as_bool rel; Some (PSwitch f r rel c rs d)
  | CRandomSwitch, [s; t; a; b; g; c; f; r] =>
      do s <- as_text s; do t <- as_int t; do a <- as_bool a; do b <- as_int b; do g <- as_list as_expr g;
      do c <- as_opt as_int c; do f <- as_opt as_feature f; do r <- as_opt as_int r; Some (PRandom f r s c t a b g)
  | CIndustryProductionCallback, [i; o; a; v] => do v <- as_int v; Some (PProduction v i o a)
  | CAction3, [f; i; m; d; w] =>
      do f <- as_feature f; do i <- as_list as_int i; do m <- as_entries as_int as_expr m; do d <- as_expr d; do w <- as_bool w;
      Some (PAction3 f w i m d)
  | CDefineStrings, [f; o; g; s; l] =>
      do f <- as_feature f; do o <- as_int o; do g <- as_bool g; do s <- as_list as_bytes s; do l <- as_int l;
      Some (PStrings (mkA4 f l o g s))
  | CReplaceNewSprites, [t; c; o] => do t <- as_int t; do c <- as_int c; do o <- as_opt as_int o; Some (PAction5 (mkA5 t c o))
  | CModifySprites, [p] => do p <- as_list as_patch p; Some (PAction6 p)
  | CIf, [st; v; c; val; sk; vs] =>
      do st <- as_bool st; do v <- as_int v; do c <- as_int c; do val <- as_if_value val; do sk <- as_int sk; do vs <- as_opt as_int vs;
      Some (PIf (mkA7 st v vs c val sk))
  | CSetDescription, [g; n; d; v] =>
      do g <- as_bytes g; do n <- as_bytes n; do d <- as_bytes d; do v <- as_int v; Some (PDescription (mkA8 v g n d))
  | CReplaceOldSprites, [s] => do s <- as_list as_pair s; Some (PActionA s)
  | CErrorMessage, [s; l; m; t; p] =>
      do s <- as_int s; do l <- as_int l; do m <- as_msg m; do t <- as_opt as_bytes t; do p <- as_list as_int p;
      Some (PError (mkAB s l m t p))
  | CComment, [b] => do b <- as_bytes b; Some (PComment b)
  | CComputeParameters, [t; o; u; s1; s2; v] =>
      do t <- as_int t; do o <- as_int o; do u <- as_bool u; do s1 <- as_int s1; do s2 <- as_int s2; do v <- as_d_value v;
      Some (PCompute (mkAD t o u s1 s2 v))
  | CLabel, [l; c] => do l <- as_int l; do c <- as_bytes c; Some (PLabel (mkA10 l c))
  | CSoundEffects, [n] => do n <- as_int n; Some (PSoundEffects n)
  | CImportSound, [g; n] => do g <- as_bytes g; do n <- as_int n; Some (PImportSound (mkAFE g n))
  | CSetProperties, [p] => do p <- as_dval p; match p with DDict l => Some (PProperties l) | _ => None end
  | _, _ => None
  end.
Fixpoint find_signature (f : bytes) (l : list (string * class * list param)) : option (class * list param) :=
  match l with [] => None | (x, c, ps) :: r => if same f (txt x) then Some (c, ps) else find_signature f r end.
(** The action an expression makes. *)
Definition construct (e : py) : option paction :=
  match e with
  | YCall (YName f) args => do (c, ps) <- find_signature f SIGNATURES; do l <- call ps args; make c l
  | _ => None
  end.
