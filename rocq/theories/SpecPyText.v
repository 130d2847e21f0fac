(** Specification: which actions can be printed as a Python statement, and
    when an action read back is the one that was printed. *)
From Coq Require Import ZArith List Bool String.
From Verif Require Import Base CommonModel RecordsModel Action14Model ParserModel GenPyModel PyValue SpecPython PyTextModel.
Import ListNotations.
Open Scope Z_scope.

(** No control characters other than line feeds. *)
Definition visible (s : bytes) : bool := forallb (fun c => (32 <=? c) || (c =? 10)) s.
(** No string but as the key of a dict: the pretty printer drops the others. *)
Fixpoint quiet (v : py) : bool :=
  match v with
  | YStr _ | YText _ => false
  | YTuple l | YList l => forallb quiet l
  | YDict l => forallb (fun e => quiet (snd e)) l
  | _ => true
  end.
(** A pretty printer: a list or dict of literals, of which only keys are
    strings, is printed as text that reads as that value, starting with its
    bracket. *)
Definition prints (pp : py -> bytes) : Prop :=
  forall v, literal v = true -> quiet v = true -> (exists l, v = YList l) \/ (exists l, v = YDict l) ->
    Inside (pp v) v /\ visible (pp v) = true /\
    match pp v with c :: _ => c = 91 \/ c = 123 | [] => False end.

(** The features by their numbers in the NewGRF specification and the names
    of the constants of grf-py. *)
Definition FEATURE_NAMES : list (Z * bytes) :=
  map (fun e => (fst e, txt (snd e)))
    [(0x00, "TRAIN"); (0x01, "RV"); (0x02, "SHIP"); (0x03, "AIRCRAFT"); (0x04, "STATION"); (0x05, "CANAL");
     (0x06, "BRIDGE"); (0x07, "HOUSE"); (0x08, "GLOBAL_VAR"); (0x09, "INDUSTRY_TILE"); (0x0a, "INDUSTRY");
     (0x0b, "CARGO"); (0x0c, "SOUND_EFFECT"); (0x0d, "AIRPORT"); (0x0e, "SIGNAL"); (0x0f, "OBJECT");
     (0x10, "RAILTYPE"); (0x11, "AIRPORT_TILE"); (0x12, "ROADTYPE"); (0x13, "TRAMTYPE"); (0x14, "ROAD_STOP")]%string.

(** ** Printable actions *)
Definition is_feature (f : Z) : Prop := 0 <= f <= 20.
Definition opt_feature (f : option Z) : Prop := match f with None => True | Some f => is_feature f end.
Definition is_bytes (b : bytes) : Prop := forallb byteb b = true.
(** A value printed by repr: not a constant of the library. *)
Definition value_ok (v : pvalue) : Prop :=
  match v with
  | VRepr v => wfp v = true /\ match v with YAttr _ _ => False | _ => True end
  | VClimate _ => True
  end.
Definition key_ok (x : bytes) : Prop := forallb asciib x = true.
Definition ref_ok (e : GenPyModel.expr) : Prop := match e with EName x => good_name x = true | _ => True end.
(** The code of a switch: one line, or lines without quotes and backslashes. *)
Definition codeb (c : Z) : bool := ((c =? 10) || (32 <=? c)) && (c <? 127) && negb (c =? 92) && negb (c =? 39).
Definition code_ok (s : bytes) : Prop := if existsb (Z.eqb 10) s then forallb codeb s = true else forallb asciib s = true.
Fixpoint dval_ok (v : dval) : Prop :=
  match v with
  | DDict l => NoDup (map fst l) /\ (fix all l := match l with [] => True | e :: r => is_bytes (fst e) /\ dval_ok (snd e) /\ all r end) l
  | DList l => Forall (fun i => match i with IBin b => is_bytes b | IText _ t => is_bytes t end) l
  end.
Definition u32 (n : Z) : Prop := 0 <= n < 4294967296.

Definition printable (a : paction) : Prop :=
  match a with
  | PDefine f _ props => is_feature f /\ NoDup (map fst props) /\ Forall (fun e => key_ok (fst e) /\ value_ok (snd e)) props
  | PDefineMultiple f _ _ props => is_feature f /\ NoDup (map fst props) /\ Forall (fun e => key_ok (fst e) /\ Forall value_ok (snd e)) props
  | PAction1 a => is_feature (a1_feature a)
  | PSpriteSet f _ => is_feature f
  | PGeneric f _ _ _ => opt_feature f
  | PBasic f _ x y | PAdvanced f _ x y => opt_feature f /\ wfp x = true /\ wfp y = true
  | PSwitch f _ _ code ranges default =>
      opt_feature f /\ code_ok code /\ Forall (fun e => ref_ok (snd e)) ranges /\ ref_ok default
  | PRandom f _ scope _ _ _ _ groups => opt_feature f /\ key_ok scope /\ Forall ref_ok groups
  | PProduction _ x y z => wfp x = true /\ wfp y = true /\ wfp z = true
  | PAction3 f _ _ maps default => is_feature f /\ Forall (fun e => ref_ok (snd e)) maps /\ ref_ok default
  | PStrings a => is_feature (a4_feature a) /\ Forall is_bytes (a4_strings a) /\ (a4_generic a = true -> 0 <= a4_offset a)
  | PAction5 _ | PAction6 _ | PActionA _ | PSoundEffects _ => True
  | PIf a => match a7_value a with IVInt n => 0 <= n | IVBytes _ => False end
  | PDescription a => is_bytes (a8_grfid a) /\ is_bytes (a8_name a) /\ is_bytes (a8_desc a)
  | PError a => match ab_message a with MText b => is_bytes b | _ => True end /\
                match ab_text_param a with Some b => is_bytes b | None => True end
  | PComment b => is_bytes b
  | PCompute a => match ad_value a with DVNone => True | DVNum n => u32 n | DVRaw _ => False end
  | PLabel a => is_bytes (a10_comment a)
  | PImportSound a => is_bytes (afe_grfid a)
  | PProperties l => dval_ok (DDict l)
  end.

(** ** The same action *)

(** The value of a property: a set of climates is a number. *)
Definition value_of (v : pvalue) : py := match v with VRepr v => v | VClimate n => YInt n end.
(** Equal, but for how a set of climates is held and for how the lines of the
    code of a switch are indented: the code parses alike. *)
Definition same_action (a b : paction) : Prop :=
  match a, b with
  | PDefine f i p, PDefine f' i' p' =>
      f = f' /\ i = i' /\ map (fun e => (fst e, value_of (snd e))) p = map (fun e => (fst e, value_of (snd e))) p'
  | PDefineMultiple f i c p, PDefineMultiple f' i' c' p' =>
      f = f' /\ i = i' /\ c = c' /\
      map (fun e => (fst e, map value_of (snd e))) p = map (fun e => (fst e, map value_of (snd e))) p'
  | PSwitch f r s code l d, PSwitch f' r' s' code' l' d' =>
      f = f' /\ r = r' /\ s = s' /\ l = l' /\ d = d' /\ parse_code code' = parse_code code /\ (~ In 10 code -> code' = code)
  | _, _ => a = b
  end.

(** ** Names *)

(** The names used in an expression. *)
Fixpoint names (v : py) : list bytes :=
  match v with
  | YName x => [x]
  | YAttr e _ => names e
  | YCall f l => names f ++ flat_map (fun e => names (snd e)) l
  | YTuple l | YList l => flat_map names l
  | YDict l => flat_map (fun e => names (fst e) ++ names (snd e)) l
  | YOr a b => names a ++ names b
  | _ => []
  end.
Definition ref_names (e : GenPyModel.expr) : list bytes := match e with EName x => [x] | _ => [] end.
(** The names an action brings along: variables of the actions it refers to,
    and what the values of its properties and sprites print. *)
Definition own_names (a : paction) : list bytes :=
  match a with
  | PDefine _ _ props => flat_map (fun e => names (value_of (snd e))) props
  | PDefineMultiple _ _ _ props => flat_map (fun e => flat_map (fun v => names (value_of v)) (snd e)) props
  | PBasic _ _ x y | PAdvanced _ _ x y => names x ++ names y
  | PSwitch _ _ _ _ ranges default => flat_map (fun e => ref_names (snd e)) ranges ++ ref_names default
  | PRandom _ _ _ _ _ _ _ groups => flat_map ref_names groups
  | PProduction _ x y z => names x ++ names y ++ names z
  | PAction3 _ _ _ maps default => flat_map (fun e => ref_names (snd e)) maps ++ ref_names default
  | _ => []
  end.
