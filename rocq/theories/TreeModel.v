(** Sprite classes, what they draw and their cache keys:
    grf/sprites.py:18-77, 233-277, 292-326, 366-411, 604-805, 852-932,
    grf/grf.py:551-574 and grf/cache.py:54-62.  Definitions only.

    PIL and numpy are represented by the operations used on them.  Sprite
    objects are trees; attributes set after construction are arbitrary
    ([attrs] in every node), [SpecTree.built] describes trees as made by the
    constructors.  Not modelled: subclasses written by users,
    ZoomDebugRecolourSprite (in ZoomDebugModel; write(debug_zoom_levels=True)
    raises KeyError, C72), names and timers, the image kept open between
    load() and unload() (files are read when used). *)
From Coq Require Import ZArith List Bool String Ascii.
From Verif Require Import Base SpriteModel CacheModel JsonModel PaletteData.
Import ListNotations.
Open Scope string_scope.
Open Scope list_scope.
Open Scope Z_scope.

Definition bs (s : string) : bytes := map (fun c => Z.of_nat (nat_of_ascii c)) (list_ascii_of_string s).

(** A PIL image of mode P (i_bpp = 8, pixels of one byte, with a palette),
    RGB (24, three bytes) or RGBA (32, four bytes). *)
Record image := mk_image { i_bpp : Z; i_w : Z; i_h : Z; i_pal : list Z; i_px : layer }.

(** What is used of PIL and of the colour search:
    Image.open of a file's bytes (with the conversion of other modes to RGBA,
    sprites.py:733-745); Image.convert('RGB') and ('RGBA');
    quantize(palette=p_img, dither=0), giving an index into the given palette
    per pixel; srgb_find_best_colour(c, in_range=ALL_COLOURS). *)
Record pil := mk_pil {
  pil_open : bytes -> option image; pil_rgb : image -> image; pil_rgba : image -> image;
  pil_pick : image -> layer; pil_best : Z * Z * Z -> Z }.

Definition map_px (f : list Z -> list Z) (l : layer) : layer := map (map f) l.

(** ---- palettes ---- *)

(** colour.py:14-17. *)
Fixpoint triples (l : list Z) : list (Z * Z * Z) :=
  match l with r :: g :: b :: rest => (r, g, b) :: triples rest | _ => [] end.
Definition PALETTE : list (Z * Z * Z) := triples PIL_PALETTE.
Definition SAFE_COLOURS : list Z := map Z.of_nat (seq 1 214) ++ [255].

Definition same_colour (a b : Z * Z * Z) : bool :=
  let '(r, g, b1) := a in let '(r2, g2, b2) := b in (r =? r2) && (g =? g2) && (b1 =? b2).
(** sprites.py:18 _FIX_PALETTE_LOOKUP = {PALETTE[i]: i}: of equal colours the
    last one. *)
Definition lookup_colour (c : Z * Z * Z) : option Z :=
  fold_left (fun r e => if same_colour (snd e) c then Some (fst e) else r)
            (combine (map Z.of_nat (seq 0 256)) PALETTE) None.

(** sprites.py:234-237 PaletteRemap: a table of 256 bytes, at first
    np.arange(256). *)
Definition identity_remap : list Z := map Z.of_nat (seq 0 256).
Fixpoint set_nth {A} (n : nat) (v : A) (l : list A) : list A :=
  match l, n with
  | [], _ => []
  | _ :: r, O => v :: r
  | a :: r, S n => a :: set_nth n v r
  end.
(** remap[i] = v: IndexError outside the array, OverflowError for v outside
    0..255 (numpy 2; numpy 1 wraps around). *)
Definition remap_set (i v : Z) (t : list Z) : option (list Z) :=
  do! ((0 <=? i) && (i <? len t) && byteb v); Some (set_nth (Z.to_nat i) v t).
(** 264-267 set_ranges: remap[f: t + 1] = v for 0 <= f and -1 <= t (a negative
    bound would count from the end and is refused here). *)
Definition set_range (r : Z * Z * Z) (t : list Z) : option (list Z) :=
  let '(f, l, v) := r in
  do! ((0 <=? f) && (-1 <=? l) && byteb v);
  Some (map (fun e => if (f <=? fst e) && (fst e <=? l) then v else snd e)
            (combine (map Z.of_nat (seq 0 (List.length t))) t)).
Fixpoint set_ranges (rs : list (Z * Z * Z)) (t : list Z) : option (list Z) :=
  match rs with [] => Some t | r :: rs => do t <- set_range r t; set_ranges rs t end.
(** 247-252 from_array, 254-258 from_buffer, 239-240 get_data. *)
Definition from_array (l : list Z) : option (list Z) := do! (len l =? 256); do! (bytesb l); Some l.
Definition from_buffer (d : bytes) : list Z := d.
Definition remap_data (t : list Z) : bytes := 0 :: t.
(** self.remap[data]: IndexError past the end of the table. *)
Definition remap_px (t : list Z) (l : layer) : option layer :=
  do! (forallb (forallb (fun p => match p with [i] => (0 <=? i) && (i <? len t) | _ => false end)) l);
  Some (map_px (fun p => match p with [i] => [nth (Z.to_nat i) t 0] | _ => p end) l).
(** 269-275 remap_image. *)
Definition remap_image (t : list Z) (im : image) : option image :=
  do! (i_bpp im =? 8);
  do px <- remap_px t (i_px im);
  Some (mk_image 8 (i_w im) (i_h im) PIL_PALETTE px).

(** 21-42 fix_palette.  The remaps kept in _remap_cache are keyed by the hash
    of the palette; two palettes with one hash are not modelled. *)
Fixpoint fill_remap (lib : pil) (i : Z) (cs : list (Z * Z * Z)) (t : list Z) : option (list Z) :=
  match cs with
  | [] => Some t
  | c :: cs =>
      let res := match lookup_colour c with Some r => r | None => pil_best lib c end in
      do t <- remap_set i res t; fill_remap lib (i + 1) cs t
  end.
Definition zlist_eqb (a b : list Z) : bool :=
  (List.length a =? List.length b)%nat && forallb (fun e => fst e =? snd e) (combine a b).
Definition fix_palette (lib : pil) (im : image) : option image :=
  do! (i_bpp im =? 8);
  if zlist_eqb (i_pal im) PIL_PALETTE then Some im else
  do t <- fill_remap lib 0 (triples (i_pal im)) identity_remap;
  remap_image t im.

(** 45-67 quantize: indices into the safe colours are turned into palette
    indices; pixels with alpha < 128 become 0. *)
Definition quantize (lib : pil) (im : image) : option image :=
  let rgb := if i_bpp im =? 32 then mk_image 24 (i_w im) (i_h im) [] (map_px (firstn 3) (i_px im)) else im in
  do px <- remap_px SAFE_COLOURS (pil_pick lib rgb);
  let px := if i_bpp im =? 32
            then map (fun e => map (fun q => if nth 3 (snd q) 0 <? 128 then [0] else fst q) (combine (fst e) (snd e)))
                     (combine px (i_px im))
            else px in
  Some (mk_image 8 (i_w im) (i_h im) PIL_PALETTE px).

(** ---- sprites ---- *)

(** Attributes of Sprite: 293-303. *)
Record attrs := mk_attrs {
  a_w : option Z; a_h : option Z; a_xofs : Z; a_yofs : Z; a_zoom : Z; a_bpp : option Z; a_crop : bool }.

(** FileSprite (with the path and colourkey of its ImageFile), ImageSprite,
    EmptySprite, WithMask, MoveSprite and QuantizeSprite. *)
Inductive tree :=
| TFile (a : attrs) (path : bytes) (colourkey : option (Z * Z * Z)) (x y : Z) (kw : list (bytes * json))
| TImage (a : attrs) (im : image)
| TEmpty
| TMask (a : attrs) (s m : tree) (mode : Z)
| TMove (a : attrs) (s : tree)
| TQuant (a : attrs) (s : tree).

(** 681-682: super().__init__(1, 1). *)
Definition attrs_of (t : tree) : attrs :=
  match t with
  | TFile a _ _ _ _ _ | TImage a _ | TMask a _ _ _ | TMove a _ | TQuant a _ => a
  | TEmpty => mk_attrs (Some 1) (Some 1) 0 0 0 None true
  end.

(** The constructors.  294: assert bpp in (None, 8, 24, 32). *)
Definition bpp_ok (b : option Z) : bool :=
  match b with None => true | Some b => (b =? 8) || (b =? 24) || (b =? 32) end.
(** 759-766 FileSprite. *)
Definition new_file (path : bytes) (colourkey : option (Z * Z * Z)) (x y : Z) (a : attrs) (kw : list (bytes * json)) : option tree :=
  do! (bpp_ok (a_bpp a));
  do! (match colourkey, a_bpp a with Some _, Some 8 => false | _, _ => true end);
  Some (TFile a path colourkey x y kw).
(** 715-717 ImageSprite of an image already of mode P, RGB or RGBA (70-77
    convert_image turns the others into RGB). *)
Definition new_image (im : image) (xofs yofs zoom : Z) (crop : bool) : option tree :=
  do! (bpp_ok (Some (i_bpp im)));
  Some (TImage (mk_attrs (Some (i_w im)) (Some (i_h im)) xofs yofs zoom (Some (i_bpp im)) crop) im).
(** 619-634 WithMask. *)
Definition new_mask (s m : tree) (mode : Z) : option tree :=
  do! (match a_bpp (attrs_of m) with None => true | Some b => b =? 8 end);
  let a := attrs_of s in
  Some (TMask (mk_attrs (a_w a) (a_h a) (a_xofs a) (a_yofs a) (a_zoom a) (a_bpp a)
                        (a_crop a && a_crop (attrs_of m))) s m mode).
(** 852-860 SpriteWrapper, 904-908 MoveSprite. *)
Definition new_move (s : tree) (dx dy : Z) : tree :=
  let a := attrs_of s in
  TMove (mk_attrs (a_w a) (a_h a) (a_xofs a + dx) (a_yofs a + dy) (a_zoom a) (a_bpp a) (a_crop a)) s.
(** 922-925 QuantizeSprite. *)
Definition new_quant (s : tree) : tree :=
  let a := attrs_of s in
  TQuant (mk_attrs (a_w a) (a_h a) (a_xofs a) (a_yofs a) (a_zoom a) (Some 8) (a_crop a)) s.

(** ---- what they draw ---- *)

(** Files: modification time (repr of the float os.path.getmtime gives) and
    bytes. *)
Definition world := bytes -> option (bytes * bytes).

Definition or_else {A} (o : option A) (d : A) : A := match o with Some a => a | None => d end.

(** 775-782 FileSprite.get_image.  'w is None or h is None and ...' binds as
    'w is None or (h is None and ...)'.  An ImageFile takes no keyword
    arguments (753-755): TypeError with any.  A negative size makes
    Image.crop raise. *)
Definition file_image (lib : pil) (W : world) (a : attrs) (path : bytes) (x y : Z) (kw : list (bytes * json)) : option image :=
  do! (match kw with [] => true | _ => false end);
  do (_, data) <- W path;
  do im <- pil_open lib data;
  let whole := match a_w a, a_h a with
               | None, _ => true
               | Some _, None => (x =? 0) && (y =? 0)
               | _, _ => false end in
  do w <- (if whole then Some (i_w im) else a_w a);
  do h <- (if whole then Some (i_h im) else a_h a);
  do! negb ((x <? 0) || (y <? 0) || (i_w im <? x + w) || (i_h im <? y + h));
  do! ((0 <=? w) && (0 <=? h));
  Some (mk_image (i_bpp im) w h (i_pal im) (cut x y w h (i_px im))).

(** get_image: 775 FileSprite, 722 ImageSprite, 927-932 QuantizeSprite; 323
    NotImplementedError for the others. *)
Fixpoint get_image (lib : pil) (W : world) (t : tree) : option image :=
  match t with
  | TFile a path _ x y kw => file_image lib W a path x y kw
  | TImage _ im => Some im
  | TQuant _ s =>
      do im <- get_image lib W s;
      do! negb (i_bpp im =? 8);
      quantize lib im
  | _ => None
  end.

(** 366-393 Sprite._do_get_image: the image in the wanted depth. *)
Definition convert (lib : pil) (want : option Z) (im : image) : option image :=
  match want with
  | Some b =>
      if negb (b =? i_bpp im) then
        if b =? 24 then Some (pil_rgb lib im)
        else if b =? 32 then Some (pil_rgba lib im)
        else quantize lib im
      else if i_bpp im =? 8 then fix_palette lib im else Some im
  | None => if i_bpp im =? 8 then fix_palette lib im else Some im
  end.
(** 395-411 Sprite.get_data_layers. *)
Definition image_layers (lib : pil) (w h want : option Z) (im : image) : option layers :=
  do im' <- convert lib want im;
  let bpp := or_else want (i_bpp im) in
  let w := or_else w (i_w im) in
  let h := or_else h (i_h im) in
  if bpp =? 32 then
    Some (mk_layers w h (Some (map_px (firstn 3) (i_px im'))) (Some (map_px (fun p => [nth 3 p 0]) (i_px im'))) None)
  else if bpp =? 24 then Some (mk_layers w h (Some (i_px im')) None None)
  else do! (bpp =? 8); Some (mk_layers w h None None (Some (i_px im'))).

(** Pixel by pixel where both layers have the same shape; numpy raises
    otherwise. *)
Definition zip_layers (f : list Z -> list Z -> list Z) (m l : layer) : layer :=
  map (fun e => map (fun q => f (fst q) (snd q)) (combine (fst e) (snd e))) (combine m l).

(** 784-794 FileSprite.get_data_layers: pixels of the key colour become
    transparent.  Without an RGB layer np.all(..., axis=2) raises. *)
Definition key_layers (colourkey : option (Z * Z * Z)) (d : layers) : option layers :=
  match colourkey with
  | None => Some d
  | Some (kr, kg, kb) =>
      do rgb <- l_rgb d;
      do! (shape_ok (l_h d) (l_w d) 3 (l_rgb d) && shape_ok (l_h d) (l_w d) 1 (l_alpha d));
      let is_key p := match p with [r; g; b] => (r =? kr) && (g =? kg) && (b =? kb) | _ => false end in
      if existsb (existsb is_key) rgb then
        let alpha := or_else (l_alpha d) (map_px (fun _ => [255]) rgb) in
        Some (mk_layers (l_w d) (l_h d) (l_rgb d)
                (Some (zip_layers (fun p a => if is_key p then [0] else a) rgb alpha)) (l_mask d))
      else Some d
  end.

(** 636-668 WithMask.get_data_layers.  DEFAULT_BRIGHTNESS = 128 (colour.py:19),
    MaskMode.OVERDRAW = 1.  numpy's assignments in place change a copy
    (np_make_writable) or arrays nobody else holds.  The shapes are compared
    with (h, w) instead of with each other: a layer of another shape makes
    get_real_data raise in any case. *)
Definition mask_layers (mode : Z) (d m : layers) : option layers :=
  do! ((l_w d =? l_w m) && (l_h d =? l_h m));
  do! (match l_rgb m, l_alpha m with None, None => true | _, _ => false end);
  do mm <- l_mask m;
  do! (shape_ok (l_h d) (l_w d) 3 (l_rgb d) && shape_ok (l_h d) (l_w d) 1 (l_alpha d)
       && shape_ok (l_h d) (l_w d) 1 (l_mask d) && has_shape (l_h d) (l_w d) 1 mm);
  let where_marked v := option_map (zip_layers (fun q p => if nonzero q then v q else p) mm) in
  let mask := match l_mask d with
              | Some _ => where_marked (fun q => q) (l_mask d)
              | None => Some mm end in
  if mode =? 1 then
    Some (mk_layers (l_w d) (l_h d) (where_marked (fun _ => [128; 128; 128]) (l_rgb d))
            (where_marked (fun _ => [255]) (l_alpha d)) mask)
  else Some (mk_layers (l_w d) (l_h d) (l_rgb d) (l_alpha d) mask).

(** get_data_layers: 784 FileSprite (with the size get_image settled), 395
    ImageSprite and QuantizeSprite, 700 EmptySprite, 636 WithMask, 910
    MoveSprite. *)
Fixpoint get_layers (lib : pil) (W : world) (t : tree) : option layers :=
  match t with
  | TFile a path ck x y kw =>
      do im <- file_image lib W a path x y kw;
      do d <- image_layers lib None None (a_bpp a) im;
      key_layers ck d
  | TImage a im => image_layers lib (a_w a) (a_h a) (a_bpp a) im
  | TEmpty => Some (mk_layers 1 1 None None (Some [[[0]]]))
  | TMask _ s m mode =>
      do d <- get_layers lib W s;
      do e <- get_layers lib W m;
      mask_layers mode d e
  | TMove _ s => get_layers lib W s
  | TQuant a _ =>
      do im <- get_image lib W t;
      image_layers lib (a_w a) (a_h a) (a_bpp a) im
  end.

(** get_real_data: 414 Sprite, 687 EmptySprite. *)
Definition real_data (lib : pil) (compress : bytes -> bytes) (W : world) (t : tree) : option bytes :=
  match t with
  | TEmpty => empty_real_data
  | _ =>
      do d <- get_layers lib W t;
      let a := attrs_of t in
      get_real_data compress (mk_sprite (a_xofs a) (a_yofs a) (a_zoom a) (a_crop a)) d
  end.

(** ---- cache keys ---- *)

Definition jopt (o : option Z) : json := match o with Some i => JInt i | None => JNull end.

(** 605-616 CacheableSprite.get_fingerprint. *)
Definition fp_attrs (cls : string) (a : attrs) : list (bytes * json) :=
  [(bs "class", JStr (bs cls)); (bs "w", jopt (a_w a)); (bs "h", jopt (a_h a)); (bs "xofs", JInt (a_xofs a));
   (bs "yofs", JInt (a_yofs a)); (bs "zoom", JInt (a_zoom a)); (bs "bpp", jopt (a_bpp a)); (bs "crop", JBool (a_crop a))].

(** get_fingerprint: 799-806 FileSprite, 719 ImageSprite (Uncacheable), 706
    EmptySprite, 671-677 WithMask, 878-896 SpriteWrapper, 913-918 MoveSprite. *)
Fixpoint fp_data (t : tree) : option json :=
  match t with
  | TFile a _ ck x y kw =>
      Some (JObj (fp_attrs "FileSprite" a
        ++ [(bs "colourkey", match ck with Some (r, g, b) => JArr [JInt r; JInt g; JInt b] | None => JNull end);
            (bs "x", JInt x); (bs "y", JInt y); (bs "kw", JObj kw)]))
  | TImage _ _ => None
  | TEmpty => Some (JObj [(bs "class", JStr (bs "EmptySprite"))])
  | TMask _ s m mode =>
      do fs <- fp_data s; do fm <- fp_data m;
      Some (JObj [(bs "class", JStr (bs "WithMask")); (bs "sprite", fs); (bs "mask", fm); (bs "mode", JInt mode)])
  | TMove a s =>
      do fs <- fp_data s;
      Some (JObj [(bs "class", JStr (bs "MoveSprite")); (bs "sprites", JArr [fs]);
                  (bs "xofs", JInt (a_xofs a)); (bs "yofs", JInt (a_yofs a))])
  | TQuant _ s =>
      do fs <- fp_data s;
      Some (JObj [(bs "class", JStr (bs "QuantizeSprite")); (bs "sprites", JArr [fs])])
  end.

(** get_resource_files: 473, 668, 703, 796, 871-876; [this] is the path of
    sprites.py itself. *)
Fixpoint tree_files (this : bytes) (t : tree) : list bytes :=
  match t with
  | TFile _ path _ _ _ _ => [this; path; this]
  | TImage _ _ | TEmpty => [this]
  | TMask _ s m _ => this :: this :: tree_files this s ++ tree_files this m
  | TMove _ s | TQuant _ s => this :: this :: tree_files this s
  end.

(** grf.py:551-574 get_sprite_fingerprint; tuples become lists in JSON.  A
    file that does not exist raises. *)
Fixpoint fp_files (W : world) (ps : list bytes) : option (list json) :=
  match ps with
  | [] => Some []
  | p :: ps => do (m, _) <- W p; do r <- fp_files W ps; Some (JArr [JObj [(bs "path", JStr p)]; JFloat m] :: r)
  end.
Definition fingerprint (this : bytes) (W : world) (t : tree) : option json :=
  do d <- fp_data t;
  do fs <- fp_files W (tree_files this t);
  Some (JObj [(bs "data", d); (bs "files", JArr fs)]).

(** cache.py:54-62 hexdigest; [md5] is md5(...).hexdigest()[:16]. *)
Definition cache_key {K} (md5 : bytes -> K) (this : bytes) (W : world) (t : tree) : option K :=
  do j <- fingerprint this W t; Some (md5 (dumps j)).

(** grf.py:635-655 get_sprite_data for one sprite: the bytes from the cache,
    or the encoded sprite, which is stored; None when encoding raises. *)
Definition sprite_data (lib : pil) (compress : bytes -> bytes) (md5 : bytes -> key) (this : bytes) (W : world)
    (dc : disk * cache) (t : tree) : (disk * cache) * option bytes :=
  let '(d, c) := dc in
  match fp_data t with
  | None => (dc, real_data lib compress W t)
  | Some _ =>
      match cache_key md5 this W t with
      | None => (dc, None)
      | Some k =>
          match cache_get d c k with
          | (c, Some v) => ((d, c), Some v)
          | (c, None) =>
              match real_data lib compress W t with
              | Some r => (cache_set d c k r, Some r)
              | None => ((d, c), None)
              end
          end
      end
  end.
(** The sprites of a file in turn; an exception ends it. *)
Fixpoint sprites_data (lib : pil) (compress : bytes -> bytes) (md5 : bytes -> key) (this : bytes) (W : world)
    (dc : disk * cache) (ts : list tree) : (disk * cache) * option (list bytes) :=
  match ts with
  | [] => (dc, Some [])
  | t :: ts =>
      match sprite_data lib compress md5 this W dc t with
      | (dc, None) => (dc, None)
      | (dc, Some v) =>
          let '(dc, vs) := sprites_data lib compress md5 this W dc ts in
          (dc, option_map (cons v) vs)
      end
  end.
(** One write(): grf.py:725-740 loads the cache, the sprites are written, and
    the cache is saved whether or not that raised. *)
Definition build_data (lib : pil) (compress : bytes -> bytes) (md5 : bytes -> key) (this : bytes) (d : disk)
    (W : world) (clean : bool) (ts : list tree) : disk * option (list bytes) :=
  let '((d, c), vs) := sprites_data lib compress md5 this W (d, cache_load d clean) ts in
  (fst (cache_save d c), vs).
