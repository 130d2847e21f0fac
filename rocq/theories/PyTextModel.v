(** Model of the Python text of actions: the [py] methods of grf/actions.py,
    the printing helpers (_py_dict, pformat), textwrap.dedent and strip as
    generate_python applies them (grf/grf.py:310), and the constructors the
    text calls.  Definitions only.

    Text is a list of character codes.  [pp] stands for the pformat method of
    the pretty printer; PrettyModel.pretty models it.  References are the expressions GenPyModel.format_ref prints.
    Not modelled: property values printed by other classes of the library
    (sprite layouts, industry layouts), Temp objects in layouts, graphics. *)
From Coq Require Import ZArith List Bool String.
From Verif Require Import Base CommonModel RecordsModel Action14Model DecodeModel ParserModel GenPyModel PyValue.
Import ListNotations.
Open Scope string_scope.
Open Scope list_scope.
Open Scope Z_scope.

(** ** repr (CPython) *)

(** bytes.__repr__ and str.__repr__ (ASCII only): double quotes only around
    text with a quote and no double quote. *)
Definition repr_quote (s : bytes) : Z :=
  if existsb (Z.eqb 39) s && negb (existsb (Z.eqb 34) s) then 34 else 39.
Definition repr_esc (q c : Z) : bytes :=
  if (c =? q) || (c =? 92) then [92; c]
  else if c =? 9 then [92; 116] else if c =? 10 then [92; 110] else if c =? 13 then [92; 114]
  else if (c <? 32) || (127 <=? c) then [92; 120; hex_digit (c / 16); hex_digit (c mod 16)]
  else [c].
Definition repr_chars (s : bytes) : bytes :=
  let q := repr_quote s in q :: flat_map (repr_esc q) s ++ [q].

(** sep.join(l) *)
Fixpoint joins (sep : bytes) (l : list bytes) : bytes :=
  match l with
  | [] => []
  | [a] => a
  | a :: r => a ++ sep ++ joins sep r
  end.

(** None, True, 5, b'', '', (1,), (1, 2), [1], {1: 2}; objects whose repr is
    a call with keywords (SpriteRef, actions.py:187-195) or positional
    arguments (datetime.date, Ref). *)
Fixpoint repr (v : py) : bytes :=
  match v with
  | YNone => txt "None"
  | YBool b => if b then txt "True" else txt "False"
  | YInt n => str_int n
  | YBytes b => 98 :: repr_chars b
  | YStr s | YText s => repr_chars s
  | YTuple l => match l with
                | [a] => 40 :: repr a ++ [44; 41]
                | _ => 40 :: joins (txt ", ") (map repr l) ++ [41]
                end
  | YList l => 91 :: joins (txt ", ") (map repr l) ++ [93]
  | YDict l => 123 :: joins (txt ", ") (map (fun e => repr (fst e) ++ txt ": " ++ repr (snd e)) l) ++ [125]
  | YName x => x
  | YAttr e x => repr e ++ 46 :: x
  | YCall f l => repr f ++ 40 :: joins (txt ", ") (map (fun e => match fst e with
                                                          | [] => repr (snd e)
                                                          | x => x ++ 61 :: repr (snd e)
                                                          end) l) ++ [41]
  | YOr a b => repr a ++ txt " | " ++ repr b
  end.

(** ** Text functions *)

(** c.isspace() for ASCII. *)
Definition spaceb (c : Z) : bool := (c =? 32) || ((9 <=? c) && (c <=? 13)).
Fixpoint lstrip (s : bytes) : bytes :=
  match s with c :: r => if spaceb c then lstrip r else s | [] => [] end.
Definition strip (s : bytes) : bytes := rev (lstrip (rev (lstrip s))).
(** Lines; only the line feed separates lines (the texts here contain no
    other line separators of str.splitlines). *)
Fixpoint lines (s : bytes) : list bytes :=
  match s with
  | [] => [[]]
  | c :: r => if c =? 10 then [] :: lines r
              else match lines r with [] => [[c]] | l :: ls => (c :: l) :: ls end
  end.
Definition unlines (l : list bytes) : bytes := joins [10] l.
Definition blankb (l : bytes) : bool := forallb spaceb l.
(** textwrap.indent(text, ' ' * n) *)
Definition indent (n : nat) (s : bytes) : bytes :=
  unlines (map (fun l => if blankb l then l else repeat 32 n ++ l) (lines s)).
(** textwrap.dedent: blank lines become empty, the longest common indentation
    of the others is removed. *)
Definition is_tab (c : Z) : bool := (c =? 32) || (c =? 9).
Fixpoint indentation (l : bytes) : bytes :=
  match l with c :: r => if is_tab c then c :: indentation r else [] | [] => [] end.
Fixpoint common_prefix (a b : bytes) : bytes :=
  match a, b with
  | x :: a, y :: b => if x =? y then x :: common_prefix a b else []
  | _, _ => []
  end.
Definition tabs_only (l : bytes) : bool := forallb is_tab l.
Fixpoint margin (ls : list bytes) : option bytes :=
  match ls with
  | [] => None
  | l :: ls => if tabs_only l then margin ls
               else Some (match margin ls with Some m => common_prefix (indentation l) m | None => indentation l end)
  end.
Definition dedent (s : bytes) : bytes :=
  let ls := lines s in
  let n := match margin ls with Some m => List.length m | None => O end in
  unlines (map (fun l => if tabs_only l then [] else skipn n l) ls).

(** actions.py:2551-2559 pformat: [first] is indent_first, None as given. *)
Definition pformat (pp : py -> bytes) (v : py) (n : nat) (first : option nat) : bytes :=
  let res := indent n (pp v) in
  match first with
  | None => res
  | Some f => if (f =? n)%nat then res else lstrip res ++ repeat 32 f
  end.

(** actions.py:103-115 _py_dict with its indent of 12; the entries are given
    with their printed keys and values. *)
Definition py_dict (l : list (bytes * bytes)) : bytes :=
  let res := flat_map (fun e => 10 :: repeat 32 12 ++ txt "    " ++ fst e ++ txt ": " ++ snd e ++ [44]) l in
  match res with
  | [] => txt "{}"
  | _ :: r => if existsb (Z.eqb 10) r then 123 :: res ++ 10 :: repeat 32 12 ++ [125]
              else 123 :: lstrip (removelast res) ++ [125]
  end.

(** ** Values in the texts *)

(** common.py:148-173: the constants of the features, upper case names. *)
Definition FEATURE_CONSTANTS : list bytes :=
  map txt ["TRAIN"; "RV"; "SHIP"; "AIRCRAFT"; "STATION"; "CANAL"; "BRIDGE"; "HOUSE"; "GLOBAL_VAR"; "INDUSTRY_TILE";
           "INDUSTRY"; "CARGO"; "SOUND_EFFECT"; "AIRPORT"; "SIGNAL"; "OBJECT"; "RAILTYPE"; "AIRPORT_TILE"; "ROADTYPE";
           "TRAMTYPE"; "ROAD_STOP"].
(** A feature object prints its constant (135-136); None prints None. *)
Definition feature_py (f : option Z) : py :=
  match f with None => YNone | Some f => YName (nth (Z.to_nat f) FEATURE_CONSTANTS []) end.
Definition opt_int (o : option Z) : py := match o with None => YNone | Some n => YInt n end.
Definition opt_bytes (o : option bytes) : py := match o with None => YNone | Some b => YBytes b end.
(** actions.py:31-36, 137-140, 150-153: references. *)
Definition expr_py (e : expr) : py :=
  match e with
  | EName x => YName x
  | ERef (Some v) => YCall (YName (txt "Ref")) [([], YInt v)]
  | ERef None => YCall (YName (txt "Ref")) [([], YNone)]
  | ECB v => YCall (YName (txt "CB")) [([], YInt v)]
  | EInt n => YInt n
  end.
Definition key_py (k : key) : py := match k with KOne v => YInt v | KTwo l h => YTuple [YInt l; YInt h] end.

(** Action 6 parameters as decode_action6 makes them (decompile.py:763). *)
Definition patch_py (p : patch6) : py :=
  let '(num, size, offset) := p in
  YDict [(YStr (txt "num"), YInt num); (YStr (txt "size"), YInt size); (YStr (txt "offset"), YInt offset)].
(** Action 14 properties as decode_action14 makes them. *)
Definition item_py (i : ditem) : py := match i with IBin b => YBytes b | IText l t => YTuple [YInt l; YBytes t] end.
Fixpoint dval_py (v : dval) : py :=
  match v with
  | DDict l => YDict (map (fun e => (YBytes (fst e), dval_py (snd e))) l)
  | DList l => YList (map item_py l)
  end.

(** ClimateProperty.format, actions.py:271-289; constants 0, 15, 1, 2, 4, 8. *)
Definition climate (x : string) : py := YAttr (YName (txt "grf")) (txt x).
Definition climate_text (v : Z) : bytes :=
  if v =? 0 then repr (climate "NO_CLIMATE")
  else if v =? 15 then repr (climate "ALL_CLIMATES")
  else if negb ((0 <? v) && (v <? 15)) then repr (YInt v)
  else joins (txt " | ")
         (map (fun e => repr (climate (snd e)))
              (filter (fun e => 0 <? Z.land (fst e) v)
                      [(1, "TEMPERATE"); (2, "ARCTIC"); (4, "TROPICAL"); (8, "TOYLAND")])).
(** A property value: printed by ClimateProperty.format or by repr
    (py_property, 1266-1270). *)
Inductive pvalue := VRepr (v : py) | VClimate (n : Z).
Definition pvalue_text (v : pvalue) : bytes := match v with VRepr v => repr v | VClimate n => climate_text n end.

(** ** Actions *)
Inductive paction :=
| PDefine (feature : Z) (id : Z) (props : list (bytes * pvalue))
| PDefineMultiple (feature : Z) (first_id count : Z) (props : list (bytes * list pvalue))
| PAction1 (a : action1)
| PSpriteSet (feature count : Z)
| PGeneric (feature ref_id : option Z) (ent1 ent2 : list Z)
| PBasic (feature ref_id : option Z) (ground building : py)
| PAdvanced (feature ref_id : option Z) (ground buildings : py)
| PSwitch (feature ref_id : option Z) (related : bool) (code : bytes) (ranges : list (key * expr)) (default : expr)
| PRandom (feature ref_id : option Z) (scope : bytes) (count : option Z) (triggers : Z) (cmp_all : bool) (lowest : Z) (groups : list expr)
| PProduction (version : Z) (inputs outputs again : py)
| PAction3 (feature : Z) (wagon : bool) (ids : list Z) (maps : list (Z * expr)) (default : expr)
| PStrings (a : action4)
| PAction5 (a : action5)
| PAction6 (l : list patch6)
| PIf (a : action7)
| PDescription (a : action8)
| PActionA (l : list (Z * Z))
| PError (a : actionB)
| PComment (b : bytes)
| PCompute (a : actionD)
| PLabel (a : action10)
| PSoundEffects (n : Z)
| PImportSound (a : actionFE)
| PProperties (l : ddict).

(** 132-135 _py_ref_id *)
Definition ref_id_text (r : option Z) : bytes :=
  match r with None => [] | Some i => txt "
            ref_id=" ++ str_int i ++ [44] end.
Definition ints (l : list Z) : py := YList (map YInt l).
Definition msg_py (m : msg) : py := match m with MBuiltin n => YInt n | MText b => YBytes b end.
(** '{x:04x}' for 0 <= x *)
Definition fmt_04x (x : Z) : bytes := let s := hex_nat x in repeat 48 (4 - List.length s) ++ s.

(** The comment of If and ComputeParameters: repr(struct.pack("<I", value))[2:-1] *)
Definition value_comment (n : Z) : option bytes :=
  do b <- pack_I n; Some (txt "  # " ++ removelast (skipn 2 (repr (YBytes b)))).

(** 1800-1804: the code of a switch *)
Definition code_text (code : bytes) : bytes :=
  if existsb (Z.eqb 10) code
  then lstrip (indent 16 (txt "'''
" ++ code ++ txt "'''"))
  else repr (YStr code).

(** The py methods; None: an exception. *)
Definition py_text (pp : py -> bytes) (a : paction) : option bytes :=
  match a with
  (* 1472-1479 *)
  | PDefine f id props => Some (txt "
        Define(
            feature=" ++ repr (feature_py (Some f)) ++ txt ",
            id=" ++ str_int id ++ txt ",
            props=" ++ py_dict (map (fun e => (repr (YStr (fst e)), pvalue_text (snd e))) props) ++ txt "
        )")
  (* 1437-1451 *)
  | PDefineMultiple f id count props => Some (txt "
        DefineMultiple(
            feature=" ++ repr (feature_py (Some f)) ++ txt ",
            first_id=" ++ str_int id ++ txt ",
            count=" ++ str_int count ++ txt ",
            props=" ++ py_dict (map (fun e => (repr (YStr (fst e)), 91 :: joins (txt ", ") (map pvalue_text (snd e)) ++ [93])) props)
            ++ txt "
        )
        ")
  (* 1507-1514 *)
  | PAction1 a => Some (txt "
        Action1(
            feature=" ++ repr (feature_py (Some (a1_feature a))) ++ txt ",
            set_count=" ++ str_int (a1_set_count a) ++ txt ",
            sprite_count=" ++ str_int (a1_sprite_count a) ++ txt ",
            first_set=" ++ repr (opt_int (a1_first_set a)) ++ txt ",
        )")
  (* 1521-1526 *)
  | PSpriteSet f count => Some (txt "
        SpriteSet(
            feature=" ++ repr (feature_py (Some f)) ++ txt ",
            count=" ++ str_int count ++ txt ",
        )")
  (* 1563-1571 *)
  | PGeneric f r ent1 ent2 => Some (txt "         GenericSpriteLayout(
            feature=" ++ repr (feature_py f) ++ txt "," ++ ref_id_text r ++ txt "
            ent1=" ++ repr (YTuple (map YInt ent1)) ++ txt ",
            ent2=" ++ repr (YTuple (map YInt ent2)) ++ txt ",
        )
        ")
  (* 1590-1597 *)
  | PBasic f r ground building => Some (txt "         BasicSpriteLayout(
            feature=" ++ repr (feature_py f) ++ txt "," ++ ref_id_text r ++ txt "
            ground=" ++ repr ground ++ txt ",
            building=" ++ repr building ++ txt ",
        )
        ")
  (* 1651-1657 *)
  | PAdvanced f r ground buildings => Some (txt "
        AdvancedSpriteLayout(
            feature=" ++ repr (feature_py f) ++ txt "," ++ ref_id_text r ++ txt "
            ground=" ++ repr ground ++ txt ",
            buildings=" ++ repr buildings ++ txt ",
        )")
  (* 1800-1814 *)
  | PSwitch f r related code ranges default => Some (txt "
        Switch(
            feature=" ++ repr (feature_py f) ++ txt "," ++ ref_id_text r ++ txt "
            related_scope=" ++ repr (YBool related) ++ txt ",
            code=" ++ code_text code ++ txt ",
            ranges=" ++ py_dict (map (fun e => (repr (key_py (fst e)), repr (expr_py (snd e)))) ranges) ++ txt ",
            default=" ++ repr (expr_py default) ++ txt ",
        )")
  (* 1871-1882 *)
  | PRandom f r scope count triggers cmp_all lowest groups => Some (txt "
        RandomSwitch(
            feature=" ++ repr (feature_py f) ++ txt "," ++ ref_id_text r ++ txt "
            scope=" ++ repr (YStr scope) ++ txt ",
            count=" ++ repr (opt_int count) ++ txt ",
            triggers=" ++ str_int triggers ++ txt ",
            cmp_all=" ++ repr (YBool cmp_all) ++ txt ",
            lowest_bit=" ++ str_int lowest ++ txt ",
            groups=[" ++ joins (txt ", ") (map (fun e => repr (expr_py e)) groups) ++ txt "],
        )")
  (* 1923-1930 *)
  | PProduction version inputs outputs again => Some (txt "
        IndustryProductionCallback(
            version=" ++ str_int version ++ txt ",
            inputs=" ++ repr inputs ++ txt ",
            outputs=" ++ repr outputs ++ txt ",
            do_again=" ++ repr again ++ txt ",
        )")
  (* 1973-1982 *)
  | PAction3 f wagon ids maps default => Some (txt "
        Action3(
            feature=" ++ repr (feature_py (Some f)) ++ txt ",
            wagon_override=" ++ repr (YBool wagon) ++ txt ",
            ids=" ++ repr (ints ids) ++ txt ",
            maps=" ++ py_dict (map (fun e => (repr (YInt (fst e)), repr (expr_py (snd e)))) maps) ++ txt ",
            default=" ++ repr (expr_py default) ++ txt ",
        )")
  (* 2047-2056 *)
  | PStrings a => Some (txt "
        DefineStrings(
            feature=" ++ repr (feature_py (Some (a4_feature a))) ++ txt ",
            lang=" ++ str_int (a4_lang a) ++ txt ",
            offset=" ++ (if a4_generic a then txt "0x" ++ fmt_04x (a4_offset a) else str_int (a4_offset a)) ++ txt ",
            is_generic_offset=" ++ repr (YBool (a4_generic a)) ++ txt ",
            strings=" ++ pformat pp (YList (map YBytes (a4_strings a))) 18 (Some O) ++ txt "
        )")
  (* 2085-2086 *)
  | PAction5 a => Some (txt "ReplaceNewSprites(set_type=" ++ str_int (a5_type a) ++ txt ", count=" ++ str_int (a5_count a)
                        ++ txt ", offset=" ++ repr (opt_int (a5_offset a)) ++ txt ")")
  (* 2104-2105 *)
  | PAction6 l => Some (txt "ModifySprites(
" ++ pformat pp (YList (map patch_py l)) 4 None ++ txt "
)")
  (* 2133-2143 *)
  | PIf a =>
      match a7_value a with
      | IVBytes _ => None
      | IVInt v =>
        do c <- (if v <=? 4294967295 then value_comment v else Some []);
        Some (txt "
            If(
                is_static=" ++ repr (YBool (a7_static a)) ++ txt ",
                variable=" ++ str_int (a7_var a) ++ txt ",
                varsize=" ++ repr (opt_int (a7_varsize a)) ++ txt ",
                condition=" ++ str_int (a7_cond a) ++ txt ",
                value=" ++ str_int v ++ txt "," ++ c ++ txt "
                skip=" ++ str_int (a7_skip a) ++ txt ",
            )")
      end
  (* 2180-2187 *)
  | PDescription a => Some (txt "
        SetDescription(
            format_version=" ++ str_int (a8_version a) ++ txt ",
            grfid=" ++ repr (YBytes (a8_grfid a)) ++ txt ",
            name=" ++ repr (YBytes (a8_name a)) ++ txt ",
            description=" ++ repr (YBytes (a8_desc a)) ++ txt ",
        )")
  (* 2207-2208 *)
  | PActionA l => Some (txt "ReplaceOldSprites(sets=" ++ repr (YList (map (fun s => YTuple [YInt (fst s); YInt (snd s)]) l)) ++ txt ")")
  (* 2239-2247 *)
  | PError a => Some (txt "
        ErrorMessage(
            severity=" ++ str_int (ab_severity a) ++ txt ",
            lang=" ++ str_int (ab_lang a) ++ txt ",
            message=" ++ repr (msg_py (ab_message a)) ++ txt ",
            text_param=" ++ repr (opt_bytes (ab_text_param a)) ++ txt ",
            params=" ++ repr (ints (ab_params a)) ++ txt ",
        )")
  (* 2261-2262 *)
  | PComment b => Some (txt "Comment(" ++ repr (YBytes b) ++ txt ")")
  (* 2288-2302 *)
  | PCompute a =>
      do v <- (match ad_value a with
               | DVNone => Some (txt "None", [])
               | DVNum n => do c <- value_comment n; Some (str_int n, c)
               | DVRaw _ => None
               end);
      let (v, c) := v in
      Some (txt "
        ComputeParameters(
            target=" ++ str_int (ad_target a) ++ txt ",
            operation=" ++ str_int (ad_op a) ++ txt ",
            if_undefined=" ++ repr (YBool (ad_if_undefined a)) ++ txt ",
            source1=" ++ str_int (ad_src1 a) ++ txt ",
            source2=" ++ str_int (ad_src2 a) ++ txt ",
            value=" ++ v ++ txt "," ++ c ++ txt "
        )")
  (* 2318-2319 *)
  | PLabel a => Some (txt "Label(" ++ str_int (a10_label a) ++ txt ", " ++ repr (YBytes (a10_comment a)) ++ txt ")")
  (* 2332-2333 *)
  | PSoundEffects n => Some (txt "SoundEffects(" ++ str_int n ++ txt ")")
  (* 2345-2346 *)
  | PImportSound a => Some (txt "ImportSound(" ++ repr (YBytes (afe_grfid a)) ++ txt ", " ++ str_int (afe_number a) ++ txt ")")
  (* 2459-2463 *)
  | PProperties l => Some (txt "
        SetProperties(
            props=" ++ pformat pp (dval_py (DDict l)) 18 (Some O) ++ txt "
        )")
  end.

(** grf.py:310 *)
Definition code_of (pp : py -> bytes) (a : paction) : option bytes := do s <- py_text pp a; Some (strip (dedent s)).

(** The names the printed program defines before its statements
    (grf.py:273-280, 285 names the classes of the actions): the modules, the
    constants of the features and zoom levels, the imported classes and g. *)
Definition PROGRAM_NAMES : list bytes :=
  map txt ["datetime"; "grf"] ++ FEATURE_CONSTANTS ++
  map txt ["ZOOM_NORMAL"; "ZOOM_4X"; "ZOOM_2X"; "ZOOM_OUT_2X"; "ZOOM_OUT_4X"; "ZOOM_OUT_8X";
           "Ref"; "CB"; "ImageFile"; "FileSprite"; "WithMask"; "RAWSound"; "PaletteRemap"; "g"].
(** self.__class__.__name__: bound by grf.py:281-285. *)
Definition class_name (a : paction) : bytes :=
  txt (match a with
       | PDefine _ _ _ => "Define" | PDefineMultiple _ _ _ _ => "DefineMultiple" | PAction1 _ => "Action1"
       | PSpriteSet _ _ => "SpriteSet" | PGeneric _ _ _ _ => "GenericSpriteLayout" | PBasic _ _ _ _ => "BasicSpriteLayout"
       | PAdvanced _ _ _ _ => "AdvancedSpriteLayout" | PSwitch _ _ _ _ _ _ => "Switch" | PRandom _ _ _ _ _ _ _ _ => "RandomSwitch"
       | PProduction _ _ _ _ => "IndustryProductionCallback" | PAction3 _ _ _ _ _ => "Action3" | PStrings _ => "DefineStrings"
       | PAction5 _ => "ReplaceNewSprites" | PAction6 _ => "ModifySprites" | PIf _ => "If" | PDescription _ => "SetDescription"
       | PActionA _ => "ReplaceOldSprites" | PError _ => "ErrorMessage" | PComment _ => "Comment" | PCompute _ => "ComputeParameters"
       | PLabel _ => "Label" | PSoundEffects _ => "SoundEffects" | PImportSound _ => "ImportSound" | PProperties _ => "SetProperties"
       end).

(** The decoders of the records printed from their data alone
    (decompile.py:992-1017 ACTIONS; [t] is the first byte of the pseudo
    sprite, 254 stands for the sound action FE): None also for the other
    actions. *)
Definition decode_record (t : Z) (d : bytes) : option paction :=
  if t =? 1 then option_map PAction1 (decode_action1 d)
  else if t =? 4 then option_map PStrings (decode_action4 d)
  else if t =? 5 then option_map PAction5 (decode_action5 d)
  else if t =? 6 then option_map PAction6 (decode_action6 d)
  else if t =? 7 then option_map PIf (decode_action7or9 false d)
  else if t =? 8 then option_map PDescription (decode_action8 d)
  else if t =? 9 then option_map PIf (decode_action7or9 true d)
  else if t =? 10 then option_map PActionA (decode_actionA d)
  else if t =? 11 then option_map PError (decode_actionB d)
  else if t =? 12 then option_map PComment (decode_actionC d)
  else if t =? 13 then option_map PCompute (decode_actionD d)
  else if t =? 16 then option_map PLabel (decode_action10 d)
  else if t =? 17 then option_map PSoundEffects (decode_action11 d)
  else if t =? 20 then option_map PProperties (decode_action14 d)
  else if t =? 254 then option_map PImportSound (decode_actionFE d)
  else None.
(** get_data of the actions whose records are decoded alone and written
    as they were read (the others: C20, C50). *)
Definition record_data (a : paction) : option bytes :=
  match a with
  | PAction1 a => action1_data a
  | PStrings a => action4_data a
  | PAction5 a => action5_data a
  | PAction6 l => action6_data l
  | PIf a => action7_data a
  | PActionA l => actionA_data l
  | PCompute a => actionD_data a
  | PLabel a => action10_data a
  | PSoundEffects n => action11_data n
  | _ => None
  end.
