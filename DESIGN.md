# Formal model of citymania-org/grf-py in Rocq (Coq 8.16.1)

## Conventions
* Python ints are `Z`; bytes are `Z` in 0..255 in lists; a Python exception is the
  value `None` of an `option` result; `struct.pack` fields fail (`None`) outside the
  field's range, exactly where Python raises.
* `data[offset:]` reading is a reader on the remaining suffix
  (`list Z -> option (A * list Z)`); running off the end is `None` (IndexError/struct.error).
* `*Model.v`: definitions only, each citing file and lines of /repo and the simplifications made.
  `VA2Vars.v`, `PaletteData.v` and the tables of `Action0Model.v` are transcribed mechanically.
* `Spec*.v`: small specifications independent of the model (the NewGRF byte format as relations
  or reference readers, the game's evaluation rules, a calendar, pictures, histories, ...).
* `*Proofs*.v` and `VA2*.v`: lemmas.  `Props*.v`: the theorems `Cnn_*`, with concrete `Example`s that meet their
  hypotheses next to them, and `Print Assumptions` for each theorem.
* `_partial`: only part of the English claim.  `_refuted`: the code does not have (that part of) the
  property; the theorem exhibits a counterexample, or shows the failure for a whole class of inputs.
* Histories, schedules and crash points are inductive lists of operations or explicit
  step functions with a fault oracle; nothing is bounded.

## Trusted base
* Coq 8.16.1's kernel (no `native_compute`; `vm_compute` only on closed Examples).
* `Print Assumptions` prints "Closed under the global context" for every theorem of every `Props*.v`: no axioms
  are used, not even of the standard library.  (The library axioms a whole-development check lists,
  `Coq.ssr.ssrunder.Under_rel.*`, are the parameters of a standard library module type
  loaded by `ZifyBool`/`Lia`; no theorem depends on them.)
* That the model says what the Python code does: the citations in the model are the only link.
  The model was compared with the source by reading (the project cannot be run here), and tested by
  seeding bugs (`seeded/LOG.jsonl`).
* Python's semantics as far as used: unbounded ints, floor division, slices, dict insertion order,
  `struct`, `sorted` stability.  Recursion limits and memory exhaustion are not modelled except where
  stated (RefsModel uses fuel for the recursion limit).
* External parties that are parameters of the model, with their assumed behaviour in the statements:
  NML's lz77 compressor (any function whose output decompresses), NML's string handling (`render`), md5,
  Python's `hash`, PIL and numpy operations (record `pil`), the file system (WriteModel, CacheModel, TreeModel's `world`),
  PLY (its lexer and its LALR(1) automaton are modelled as a longest-match lexer and a shift/reduce parser by precedence; ASCII only).

## What is modelled
| file of /repo | modelled | not modelled |
|---|---|---|
| grf/common.py | dates, extended bytes, py_index helpers, to_bytes, Feature ids | Feature.from_constant (returns None, see findings) |
| grf/actions.py | every action class's constructor checks, `get_data`; all Property codecs; Action 0 tables; CodeContext, Switch, RandomSwitch, layouts, Ref/CB; SetProperties | `py()` of layouts of industries and sprite layout lists, PrettyPrinter (a parameter); `Property.validate` (never called) |
| grf/parser.py | nodes, compile, simplify, format, lexer, grammar | non-ASCII text, error messages |
| grf/va2vars.py | all tables (VA2Vars.v, mechanically) | |
| grf/grf.py | add, generate_sprites, resolve_refs, _enumerate_sprites, _do_write, write, IDMap, generate_python (references and names in C70, the text of the statements in C71), railtype and cargo tables, description and parameters, sounds, sprite data and fingerprints | reading of language directories |
| grf/cache.py | all | |
| grf/strings.py | StringManager, StringRef, grf_compile_string | nml's own grammar of strings |
| grf/sprites.py | restore_rgba_image, Sprite, FileSprite, ImageSprite, EmptySprite, WithMask, MoveSprite, QuantizeSprite, PaletteRemap, fix_palette, quantize, RAWSound, make_rgba_image, save_gif (up to PIL's encoder), AlternativeSprites, ZoomDebugRecolourSprite | user-written subclasses |
| grf/colour.py | PALETTE, SAFE_COLOURS, openttd_adjust_brightness | colour spaces and the colour search (parameter `pil_best`) |
| grf/vox.py | VoxReader, VoxFile (all zoom levels), VoxTrainFile.DiagView up to the RGBA array | PreciseView (PIL polygons), Image.resize, colour arithmetic, offsets of train sprites |
| grf/utils.py | admin packets, admin_logging, the connection string, the watch loop (as a transition system) | argparse, asyncio and thread scheduling inside one build, sockets |
| grf/decompile.py | all action decoders, the parsing context and its statistics, container reading, sprite and sound decoding, sprite sheets, image files and their statements, names | command line, writing the Python file, progress output |
| grf/lib/* | combine_ranges, DisableDefault, BaseCosts, purchase order, articulation of trains, callback managers, industry buildings and layouts, vehicles (road vehicles, ships, trains) | the industry/object convenience classes except where listed |

## Properties: what is modelled and how it is proved

| id | property | model | proof method | status | theorems in |
|---|---|---|---|---|---|
| C01 | Extended-byte codec is exact | CommonModel: extended byte reader/writer | case analysis, div/mod arithmetic | proved | PropsCommon.v |
| C02 | Date arithmetic is the Gregorian day count | CommonModel: Date.to_days, days_till, month table | independent calendar (successor of a date); induction over days | proved | PropsCommon.v |
| C03 | Date properties survive encoding | CommonModel: DateProperty over day ordinals, datetime as civil dates 1..9999 | from C02 | proved | PropsCommon.v |
| C04 | Sprite references round-trip | CommonModel: SpriteRef.to_grf/from_grf as bit fields | bitwise/arithmetic decomposition | proved | PropsCommon.v |
| C05 | Structured property values round-trip | PropModel: every Property class, encoder and decoder | relational byte specification (SpecProp.codes); induction over lists | partial | PropsProp.v |
| C06 | Property definitions (Action 0) round-trip | Action0Model: tables transcribed mechanically, DefineMultiple, decode_action0 | induction over the property list | partial | PropsProp.v |
| C07 | Sprite set headers (Action 1) round-trip | RecordsModel: Action1, both headers | case analysis | proved | PropsLayout.v, PropsRecords.v |
| C08 | Sprite group tables (generic layouts) round-trip | Action2Model: GenericSpriteLayout | induction over lists | proved | PropsAction2.v, PropsLayout.v |
| C09 | Tile sprite layouts round-trip | Action2Model: Basic/AdvancedSpriteLayout | induction; counterexamples for the registers the writer mixes up | partial | PropsAction2.v, PropsLayout.v |
| C10 | Switch encoding chooses the branch the user wrote | VA2Model: Switch range merging and canonicalisation | game's range test as specification; signed/unsigned arithmetic | proved | PropsVA2.v |
| C11 | Switch records round-trip | VA2Model + VA2DecodeModel (+ ParserModel for the text) | byte-level specification of VarAction2 records; induction over code | partial | PropsParser.v, PropsVA2.v |
| C12 | Random switch records round-trip | Action2Model: RandomSwitch | case analysis | partial | PropsAction2.v, PropsLayout.v |
| C13 | Feature maps (Action 3) round-trip | RecordsModel: Action3 | induction | partial | PropsLayout.v, PropsRecords.v |
| C14 | String definitions (Action 4) round-trip | RecordsModel: Action4 | induction over NUL separated texts | proved | PropsLayout.v, PropsRecords.v |
| C15 | Sprite replacement records round-trip | RecordsModel: Action5/A | case analysis, induction | proved | PropsLayout.v, PropsRecords.v |
| C16 | Parameter patches (Action 6) round-trip | RecordsModel: Action6 | induction with the FF sentinel | proved | PropsLayout.v, PropsRecords.v |
| C17 | Conditional skips (Action 7/9) round-trip | RecordsModel: Action7/9 | case analysis | proved | PropsLayout.v, PropsRecords.v |
| C18 | Parameter assignments (Action D) round-trip | RecordsModel: ActionD | case analysis | proved | PropsLayout.v, PropsRecords.v |
| C19 | GRF information tree (Action 14) round-trips | Action14Model: property tree | mutual structural induction | proved | PropsRecords.v |
| C20 | Small records round-trip | RecordsModel: Actions 8/10/11/FE/C | case analysis | partial | PropsLayout.v, PropsRecords.v |
| C21 | Compiled switch code computes the expression | VA2Model: expression trees, compile; SpecVA2: the game's byte machine | induction over trees with register invariants | partial | PropsVA2.v |
| C22 | Compiler temporaries never clash | VA2Model: CodeContext | invariant over all histories of requests | proved | PropsVA2.v |
| C23 | Comparison simplification preserves meaning | VA2Model: simplify | induction; evaluator of SpecVA2 | proved | PropsVA2.v |
| C24 | Actions are written before they are referenced | RefsModel: resolve_refs | invariant of the depth first search over a finite graph | proved | PropsRefs.v |
| C25 | Reference resolution keeps every listed action | RefsModel | as C24; permutation/subset statements | proved | PropsRefs.v |
| C26 | Real sprites get distinct ids | SchedModel: _enumerate_sprites | permutation invariant of the loop | proved | PropsContainer.v, PropsSched.v |
| C27 | Files are loaded before use and released after the last use | SchedModel, ContainerModel | prefix invariant: loaded files at every moment | proved | PropsContainer.v, PropsSched.v |
| C28 | Written container is readable | ContainerModel: _do_write bytes | reader of the container framing as specification; induction | proved | PropsContainer.v |
| C29 | Duplicate elimination is invisible | ContainerModel: deduplication | induction over the resources | proved | PropsContainer.v |
| C30 | Automatic ids never collide | IdMapModel | invariant over histories | partial | PropsIdMap.v |
| C31 | Automatic ids are stable across runs | IdMapModel: sessions | invariant over histories of sessions | proved | PropsIdMap.v |
| C32 | Sprite cache behaves like a map | CacheModel | refinement to a map | proved | PropsCache.v |
| C33 | Sprite cache survives crashes | CacheModel with a dying process | invariant over steps; counterexample runs | partial | PropsCache.v |
| C34 | Sound numbering | GenModel: sounds | invariant | proved | PropsGen.v |
| C35 | String numbering | StringsModel | invariant over histories | partial | PropsStrings.v |
| C36 | Combining ids into runs loses nothing | LibModel: combine_ranges, DisableDefault, BaseCosts | induction; decoder of the records written | proved | PropsLib.v |
| C37 | Purchase-list order is realised | LibModel: purchase order | permutation/forest reasoning | proved | PropsLib.v |
| C38 | Articulated train lengths add up | LibModel: articulation | arithmetic | partial | PropsLib.v |
| C39 | Railtype fallback chains pick the first available type | RailtypeModel; SpecRail: the game executing the actions | induction over the generated actions | proved | PropsRail.v |
| C40 | Brightness adjustment stays in range | LibModel: openttd_adjust_brightness | arithmetic | proved | PropsLib.v |
| C41 | Sprite decompression inverts compression | DecodeModel: decode_sprite LZ77 | relational stream specification; induction | partial | PropsDecode.v |
| C42 | Chunked (tile) sprite decoding places every run | DecodeModel: decode_chunked | relational specification; induction over rows | proved | PropsDecode.v |
| C43 | Decompiled resource names are unique | DecodeModel: sound file names | invariant over histories | proved | PropsDecode.v |
| C44 | A failed build leaves the output untouched | WriteModel: write() steps with faults | case analysis over steps and fault points | partial | PropsWrite.v |
| C45 | Cropping keeps every visible pixel in place | SpriteModel: crop | induction over rows and columns | partial | PropsSprite.v |
| C46 | Real sprite records round-trip | SpriteModel, DecodeModel: real sprite record | composition with C41/C42 decoders | proved | PropsSprite.v |
| C47 | Callback switches dispatch to the user's callback | CallbackModel | list lemmas over assignment histories | partial | PropsCallback.v |
| C48 | Printed expressions parse back | ParserModel: format, lexer, shift/reduce parser | simulation of the parser on printed token streams; semantics of C21 | partial | PropsParser.v |
| C49 | Recompiling a decompiled record reproduces it | RecordsModel: decoders and encoders of actions 1, 4, 5, 6, 7, 9, A, D | inversion of the decoders | proved | PropsRecords.v |
| C50 | Error messages (Action B) round-trip | RecordsModel: ErrorMessage | byte specification; counterexamples | partial | PropsLayout.v, PropsRecords.v |
| C51 | Font glyph records (Action 12) round-trip | RecordsModel: Action 12 | byte specification; counterexample | partial | PropsLayout.v, PropsRecords.v |
| C52 | Industry production callbacks are read and written in the NewGRF format | Action2Model: IndustryProductionCallback | byte specification; counterexample | partial | PropsAction2.v |
| C53 | Everything added is written | GenModel: add/generate_sprites | induction | partial | PropsGen.v |
| C54 | write() reports the files it depends on | WriteModel: watched files | case analysis | partial | PropsWrite.v |
| C55 | String escapes compile to the bytes they denote | StringsModel: grf_compile_string | case analysis | proved | PropsStrings.v |
| C56 | Extracted sprites land in distinct, non-overlapping sheet cells | DecodeModel: sprite sheet packing | invariant of the packing loop | proved | PropsDecode.v |
| C57 | Sound records round-trip | DecodeModel: sound records | byte specification | partial | PropsSprite.v |
| C58 | The RGBA shortcut returns the picture it was asked for | SpriteModel: restore_rgba_image | pixel-wise | partial | PropsSprite.v |
| C59 | The sprite cache never changes what is written | JsonModel, TreeModel, CacheModel | injectivity of the JSON text; invariant over builds | proved | PropsTree.v |
| C60 | Composed sprites show the right pixels | TreeModel | pixel-wise case analysis | partial | PropsLayers.v |
| C61 | Palette conversion keeps colours | TreeModel, PaletteData | pixel-wise; induction over tables | partial | PropsLayers.v |
| C62 | An industry shows its buildings where they stand | IndustryModel; SpecIndustry: screen geometry | invariant of the strip loop (tiles, sprites); induction over layouts | partial | PropsIndustry.v |
| C63 | A file says about itself what its NewGRF was given | HeaderModel (on Action14Model, Action0Model, RailtypeModel) | state invariant over call sequences; C19 round trip of the property tree | partial | PropsHeader.v |
| C64 | Vehicles of the library show and say what they were given | VehicleModel (on CallbackModel, ParserModel); SpecVehicle: what the game reads from the records | history of callback statements threaded through the building steps; uniqueness of the reply | partial | PropsVehicle.v, PropsVehicle2.v, PropsVehicle3.v |
| C65 | A voxel model is drawn as the cubes it consists of | VoxModel (reader, z-buffer painter, zoom levels, side views; depth order and colour search are parameters); SpecVox: cubes in isometric projection, the .vox file format | fold of the painter per pixel = first maximum; case analysis of the enlargement patterns with a parity and occlusion argument; chunk-wise induction over the file | partial | PropsVox.v |
| C66 | Live reload sends the game the build log and then the reload command | UtilsModel (packets, log loop, connection string); SpecUtils: admin-port packets and their meaning | framing lemma per packet, induction over the queue with the pending text; determinism of the reader | partial | PropsUtils.v |
| C67 | Watch mode misses no change of a watched file | UtilsModel (the watch loop as a transition system over events of the user, the loop and the build) | invariants over all runs: pending changes survive until the next build, reads during a build see the version on disk | partial | PropsUtils.v |
| C68 | Previews show what the game shows | PreviewModel.make_rgba; SpecPreview.shown: the pixel the game shows | pixel by pixel through the array operations; C40 for the brightness | partial | PropsPreview.v |
| C69 | Animated previews follow the game's palette animation | PreviewModel.save_gif; SpecPreview: the game's palette animation, what is seen of a GIF | invariants of the palette and remap tables over the groups of colours; periodicity of the counter arithmetic; rotation lemma by cases | partial | PropsPreview.v |
| C70 | A decompiled grf printed as Python builds the same grf | GenPyModel.generate_python, run_program, rebuild (with RefsModel.resolve_refs for writing); SpecGenPy: nearest earlier action, same arguments | invariant of the first pass (dictionary = last definition), names injective, run by induction; resolution of fully numbered grfs: depth-first invariant with use counts | partial | PropsGenPy.v |
| C71 | The Python text printed for an action reads back as that action | PyTextModel (repr, dedent, strip, indent, pformat, every py method), PrettyModel (PrettyPrinter and pprint), PyCtorModel (signatures, constructors), PyValue; SpecPython: a reader of Python expressions with fuel; SpecPyText: printable, same_action, names | texts taken apart into pieces; each piece is read back by induction on values for every continuation; indentation, dedent and strip only change blanks outside literals; fuel monotonicity gives uniqueness; decoders yield printable actions | partial | PropsPyText.v |
| C72 | Zoom debug builds tint every sprite by its zoom level and change nothing else | ZoomDebugModel: _get_debug_recolour with its class-wide tables as state, get_data_layers, the sprite map of _do_write with wrappers as new objects; the colour search is a parameter | invariant over all histories (every table kept is 0 followed by what the search gives), then pixel by pixel; the sprite map by induction on the resources | partial | PropsZoomDebug.v |
| C73 | Alternative sprites never clash and are found by zoom and depth | ZoomDebugModel: AlternativeSprites.__init__, get_sprite, the first bytes of the records | counting lemma for len(set(..)), induction on the list; counterexamples for the slots | partial | PropsZoomDebug.v |
| C74 | Decompiling puts every sprite into the group of the action that announced it | AnnounceModel: ParsingContext, the parts of the decoders that touch it, read_pseudo_sprite for container version 2, statistics | SpecAnnounce parses announcements from bytes independently; equality of decoders and spec, then induction over records with the number of sprites still waited for as invariant | partial | PropsAnnounce.v |
| C75 | The image files the decompiler writes show every extracted sprite where the printed statement says | ExtractModel (on AnnounceModel and DecodeModel): the dictionaries by sprite number and group, the sheets as functions from coordinates to pixels, paste, frames of duplicates, the hash bookkeeping with any hash functions, the files and entries | C56 for the places; outside its box a sprite changes nothing, so each picture survives the painting of all others; file names of different groups differ (C74); success characterised by the table of sizes | partial | PropsExtract.v |
| C76 | The printed statements about graphics are a program that adds the pictures of the file | PyGraphicsModel.v (GraphicsSpriteGen.py, generate_python's loop over such generators) over ExtractModel.v | SpecProgram.v: a reader of programs of simple statements on top of SpecPython's expressions, and what ImageFile, FileSprite, WithMask and g.add do with their arguments; PyGraphicsProofs.v: the text consists of lines without stray blanks (dedent and strip change nothing), each read back; variables are injective in the paths because groups do not end like files | partial | PropsPyGraphics.v |
| C77 | A decompiled grf has every sprite and sound at its place | DecompileModel.v: read_real_sprite until the end mark, save_sound_resources, the placeholders and what they become, the text; over AnnounceModel, ExtractModel, PyGraphicsModel | SpecDecompile.v: programs that add pictures and sounds, and a relation between the places of a file and what is added; the reading proofs of C76 extended to sounds and comments, dictionaries by last assignment, C43 for the names, C57 for the records | partial | PropsDecompile.v |
| C78 | A row of a sprite table is the sprite set of its number | TableModel.v: SpriteTable, VehicleSpriteTable over RecordsModel.action1_data and Action2Model.generic_data | SpecTable.v reads Action 1 and numbers the sprites that follow; history of add_row calls by induction, concatenation of rows of equal length | partial | PropsTable.v |
| C79 | The image of a sprite sheet shows every sprite where the sprite says it is | TableModel.v: both loops of make_image, the image as a function from coordinates to colours, sprites by identity | SpecTable.v: rectangles apart, inside, and what a rectangle shows; closed form of the places, disjointness from the division of the index by the columns, invariant of the drawing loop | proved | PropsSheet.v |
| C80 | Global train settings and engine overrides do what they say and nothing else | SettingsModel.v over RecordsModel.actionD_data and Action0Model.define_data | SpecSettings.v: what the engine does with a record of Action D as a relation between parameter states; induction over the list of settings | partial | PropsSettings.v |
| C81 | Equal actions write the same record | EqModel.v over RecordsModel, VA2Model, Action0Model, Action14Model | SpecEq.v: equivalence, same blocks in another order, reordered trees; dictionary comparison proved equal to a permutation with related values; nested induction over trees | partial | PropsEq.v |
| C82 | A visual effect is read by the game as it was asked for | VisualModel.v | PropsVisual.v: engine_reads says how the game reads the bits, asked what was meant; cases over effects and positions | partial | PropsVisual.v |
| C83 | The palette picture shows every colour in its square | VisualModel.v | the picture as a function of coordinates; induction over the palette | proved | PropsVisual.v |
| C84 | Translations are written and read back | TranslationModel.v over RecordsModel | the bytes written as a concatenation; split of joined strings | partial | PropsTranslation.v |
| C85 | A file is prepared before the build reads it | PrepareModel.v over TreeModel and CacheModel: the sequence of prepare and get_image calls | what the first pass adds and the second reads, by induction over the sprites with the index and the files of the cache growing | partial | PropsPrepare.v |
| C86 | The numbers of the build report agree with the file | ReportModel.v over ContainerModel: the counters | induction over the schedule with the set of representatives of equal data; counting the records of the file by id | proved | PropsReport.v |
| C87 | Recolourings use the nearest safe colour | NearestModel.v over TreeModel: argmin of distances, the loop over the range | the first minimum of a list by induction; the table by induction over the range | proved | PropsNearest.v |
| C88 | Hexadecimal dumps say exactly what the data is | DumpModel.v over the number formats of ParserModel and int of StringsModel | a relation between data and text built numeral by numeral; the split at colons undoes the join | proved | PropsDump.v |
| C89 | Sizes in the build report are right | SizeModel.v: exact fractions rounded half to even, the loop over units | the rounding is near and monotone; cases of the unit | proved | PropsSize.v |
| C90 | Features are found as they were registered | FeatureModel.v: dictionaries with put and get, objects by number | what the last of several puts leaves, by induction over the calls; an invariant that objects are new | partial | PropsFeature.v |

### Limits per property

* **C05** (partial): codes f v w b specifies the bytes of every format that has both an encoder and a decoder. Proved for all of them: the encoder writes exactly these bytes, the decoder reads back the value, the read value is stable, different values have different bytes. C05_accepted: everything the encoder accepts is covered, for formats where its checks suffice. Partial because the full claim is false of the code: the _refuted theorems show accepted values that are not read back (register order, ground registers, child sprites, height 128, first check at x=-2, key 0, NUL, width over 15) and formats without encoder or decoder. Property.validate is never called by the library, so the property is stated for values the encoder accepts.
* **C06** (partial): Byte-level specification of the whole record (define_codes) over the property tables, transcribed mechanically from the source; written, read back, stable, and everything accepted is covered when its values are (C06_accepted); unknown properties and features refused. Partial: false for the shadowed industry property 0x12 (C06_shadowed_property_refuted) and for the formats of C05's refuted theorems.
* **C07** (proved): None is returned for the one excluded header. More than 255 sets without a first set is read back with first set 0, which denotes the same sets.
* **C08** (proved): Round trip, encodability, and the exact excluded lengths refuted for all records (C08_collision_refuted).
* **C09** (partial): Advanced layouts round-trip and recompile for the registers the writer emits and non-negative offsets; the excluded cases (negative offsets, height 128, palette/delta registers, features 0A/14, basic layouts after decoding) are proved not to hold.
* **C10** (proved): Every branch of Switch range canonicalisation and merging is modelled; see C10 theorems.
* **C11** (partial): Decoding clean records is faithful and re-encodes to the same bytes; round trip of encoded switches keeps meaning. Fails for negative ranges, 7B with another operator, 60+x names (refuted theorems). Through the printed text: C11_text_partial.
* **C12** (partial): Self and parent scopes proved; relative scope is refuted (count byte condition inverted).
* **C13** (partial): ids, maps and default round-trip for 1..127 ids with distinct cargo/type keys. The wagon-override flag is lost by the encoder and the decoder, 128+ ids are misread and an empty id list with a Ref default cannot be written (refuted theorems).
* **C14** (proved): For a non-empty string list (an empty one is refuted); texts as their encoded bytes.
* **C16** (proved): Parameter number 255 is the terminator and excluded (refuted for it).
* **C17** (proved): Integers are read back modulo the field size (equal when they fit); bit tests need size 1 (refuted otherwise).
* **C19** (proved): Trees whose tags are four bytes (or 32-bit numbers), without repeated tags or empty leaf lists.
* **C20** (partial): Actions 8, 10, 11, FE proved; Comment (Action C) is refuted: it is written as 12 zero bytes.
* **C21** (partial): Holds for all supported expressions, with success guaranteed by C21_compiles; the excluded shapes are refuted: computed/large parameter as right operand, assignment to a game variable name, 60+x names without parameter, procedures using register 80.
* **C22** (proved): Any history of allocator requests.
* **C23** (proved): All expressions, all operand values, any game.
* **C24** (proved): Order, id binding and feature proved for every acyclic graph with inline references; outside that class the claim is refuted (listed later, shared, id collision).
* **C25** (proved): Exactly the needed actions, listed order kept, no duplicates, and resolution succeeds (<=255 referenceable actions, consistent features). Outside the inline class refuted: numbered references and cycles drop listed actions.
* **C26** (proved): Ids 1..n in schedule order for lists without repetitions; distinct positive ids in general (C26_distinct). C26_listed_twice_refuted: the strict 1..n form fails when an action is listed twice.
* **C27** (proved): Schedule, and its execution by the writer (C27_carried_out), for lists without repeated resource actions. C27_listed_twice_refuted: a repeated resource action breaks it (finding).
* **C28** (proved): do_write of the model (enumeration, pseudo sprites, resources, patching) against a reader of the container framing. Hypotheses: equal hashes only for equal data, no action with empty data (a zero length ends the section).
* **C29** (proved): Under the hypothesis that equal hashes mean equal data; C29_collision_refuted shows the code relies on it.
* **C30** (partial): Names: full. Explicit ids: full for ids given in the session; C30_loaded_refuted: ids read from id_map.json are not protected (the loader stores names instead of numbers). BaseNewGRF.reserve_ids cannot be called (wrong arity); IDMap.reserve_ids is modelled.
* **C31** (proved): Any number of sessions, with or without saving. JSON encoding itself is not modelled.
* **C33** (partial): Holds unless a process dies while storing a key that index.json lists; C33_clean_build_refuted and C33_two_deaths_refuted show that this happens and then half a sprite is served.
* **C34** (proved): sameness of sounds is the model's fingerprint (a parameter): equal fingerprints share an id, different ones do not; RAWSound(path) twice gives two fingerprints, hence two ids (C34_same_file_refuted).
* **C35** (partial): full within 3072 global and 9216 persistent strings, no hash collision and no user name of the form GRFPY_n; each restriction is shown necessary by a _refuted theorem. Rendering of a text to bytes per language is nml code, a parameter of the model.
* **C36** (proved): combine_ranges for every list and limit; BaseCosts and DisableDefault set exactly the given ids in records that can be written. Refuted: a generator as ids disables nothing.
* **C37** (proved): The order, the variant groups and the names of the groups, for different vehicles (and different ids).
* **C38** (partial): Heads of every length from 1 to 24 and refusal above: proved. Added parts: only when not longer than 8 or of the parity of the head (C38_part_partial); otherwise a unit is lost (refuted). Length 0 is accepted (refuted).
* **C39** (proved): Byte-level interpreter of the game in SpecRail.v. Refuted outside the quantifier: the same first label twice; a label later in the file that catches the skip.
* **C40** (proved): All colours and brightness values, with the exact result.
* **C41** (partial): Proved for every stream of literal blocks and copies that do not overlap themselves (and for whole sprite / sound records). The unrestricted statement is false of the code: self-overlapping copies raise (C41_overlapping_copy_refuted).
* **C42** (proved): Every image and every chunking.
* **C43** (proved): Uniqueness, freshness and safety for every history of requests; totality holds below 100 equal names, and beyond it the code raises (C43_limit_refuted).
* **C44** (partial): target untouched for every fault (exception, interrupt, death) before the move; temporary file removed for every Exception. Interrupts and death leave it (C44_interrupt_refuted); a cross-device move can truncate the target (C44_copy_refuted).
* **C45** (partial): Proved for every picture with alpha or palette-only, and for non-black pixels of 24bpp pictures; opaque black borders of 24bpp pictures are cut off (C45_opaque_black_refuted), so the unrestricted statement is false of the code. Crop box shown tight.
* **C46** (proved): Every layer combination, size, offset and zoom; given a compressor whose output decompresses (specified separately, met by storing literals). C46_shown_partial composes it with cropping for sprites with alpha or palette-only.
* **C47** (partial): Proved for every sequence of assignments (constructor, attribute, .default/.purchase, properties): in the normal context every set callback is reached and every other number leads to the graphics; in the purchase list likewise (a property switch there falls back to the normal graphics); make_switch refuses exactly missing graphics or property + change_properties; flag bits are exactly those documented except four wrong table entries (refuted); property switches under the hypothesis that a Dual property's two callbacks do not share a number (refuted otherwise: two unnumbered switches are merged). Refuted parts: house flags have no such property, aircraft property numbers, 'gui' of rail/road/tramtypes, features without variable table.
* **C48** (partial): Proved: the printed text of every expression with a notation whose bitwise operators nest as the printer brackets them is read back (exactly when settled/plain; same meaning when only sums/products get regrouped), any number of lines, through lexer and shift/reduce parser. Missing: expressions excluded by printable/grouped/harmless, each class of which is refuted by a C48_*_refuted theorem (the code prints text with another meaning, or text it cannot read, or raises). PLY's LALR automaton is modelled as shift/reduce by precedence; ASCII only.
* **C50** (partial): Refuted: the decoder inverts the test for custom messages. The writer also appends a stray zero byte to built-in messages (C50_builtin_refuted); the byte layout it does emit is C50_layout_partial.
* **C51** (partial): Refuted: the constructor drops the glyphs.
* **C52** (partial): Decoder proved against the format; encoder refuted: it never writes an Action 2 production record.
* **C53** (partial): for everything except an explicit SingleResourceAction passed to add(), which the code drops silently (C53_wrapped_refuted), and with at most 183 distinct sounds.
* **C54** (partial): true only for files without resources; refuted for every file with a resource action: the returned set is empty (C54_watched_refuted).
* **C55** (proved): nml's is_ascii_string is a parameter of the model.
* **C57** (partial): Name, data position and end of record proved; the recorded size is always one too many (C57_sound_size_refuted).
* **C58** (partial): Proved for ordinary boxes of the base image; false for mirrored views (C58_mirrored_refuted).
* **C59** (proved): Over trees as the constructors make them. Hypotheses in the statement: md5 does not collide on the fingerprints involved, and a file rewritten gets another modification time. PIL and numpy are the operations of the record pil. C59_assigned_refuted: attributes assigned after construction of a WithMask are not seen by the key (outside the claim).
* **C60** (partial): C60_mask, _mask_total, _mask_refused, _file, _file_inside, _file_whole, _move, _move_twice, _quantize, _mask_depth, _place, _crop hold for all images. Refuted parts: a width given without a height is ignored (C60_width_refuted), a key colour on a palette image with no depth given raises (C60_key_8bpp_refuted).
* **C61** (partial): Proved: C61_exact, _near, _stable, _total, _quantize, _remap, _round_trip. Refuted: index 0 is converted like a colour (C61_background_refuted); the decompiler passes the leading zero into the remap, so a decompiled recolour sprite is written one byte too long (C61_decompiled_refuted).
* **C62** (partial): All of it for square buildings; pieces (C62_pieces, _only, _tiles, _height) for all sizes. C62_size_refuted: a building that is not square claims size[0] x size[0] tiles. The zoom of the building's sprite is not passed on to the pieces (not modelled).
* **C63** (partial): C63_tags: the keys are the words of the format. C63_duplicate_refuted: a label listed twice in set_cargo_table shifts the ids of the labels after it against the table written. Otherwise complete (labels of four bytes, all different).
* **C64** (partial): Found: a train longer than 8 without liveries never builds (C64_long_without_liveries_refuted); liveries of parts are not checked (C64_part_liveries_refuted); a part given a weight gets that of the train (C64_part_weight_refuted); a road vehicle with a speed of 1024 half km/h-ish or more drops the change_properties of the program (C64_change_properties_refuted); 1022 and 1023 are rounded worse than needed (C64_road_speed_1023_refuted); Ship.kmh of 128 and more does not fit its property and kmhish divides where kmh multiplies (C64_ship_kmh_refuted); object sizes are not checked (C64_object_size_refuted). Not modelled: aircraft do not exist in the library; non-integer properties.
* **C65** (partial): Proved for files whose y coordinates are at most the x size (C65_narrow_needed: otherwise voxels are misplaced). Found: models deeper than wide are torn apart (C65_deep_refuted); voxels whose nearest colour is 1 are not drawn (C65_black_refuted); 4x pictures of symmetric models are not symmetric (C65_mirror_refuted); two of the four side views depend on the order of voxels (C65_side_order_refuted). Not modelled: PreciseView and PIL resampling, floating point depth (a parameter), oklab colours (parameters).
* **C66** (partial): Proved for messages that contain no NUL and no newline but at their end, and passwords without NUL and @. Found: text after the last newline and whatever is printed after the end marker ("Reloading newgrfs.") is never sent (C66_all_arrives_refuted); a NUL in the password cuts it (C66_nul_refuted); passwords with @ or : are misread (C66_password_refuted). Not modelled: the connection, asyncio.
* **C67** (partial): Proved for files watched before the build that uses them. Found: a change saved during the first build (C67_first_build_refuted), or to a file that a running build uses for the first time (C67_new_file_refuted), is not noticed, and the loop rests with an out-of-date grf. Simplified: paths are numbers, sleeping is left out, scheduling a directory is immediate, and a build counts as failed when the game cannot be reached (its thread may in fact go on and write the grf).
* **C68** (partial): C68_shows holds for all sprites that have a preview. Found: a true-colour sprite with an empty mask raises instead (C68_empty_mask_refuted; numpy cannot broadcast an empty list to (0, 3)); C68_total_partial states exactly when there is a picture.
* **C69** (partial): Proved for all colours but the five fizzy-drink ones and sprites without radio tower colours. Found: fizzy-drink colours never move (their positions in has_colors are negative, C69_fizzy_refuted); radio tower colours raise (a pair is unpacked into three, C69_radio_tower_refuted); a sprite without animated colours raises (C69_still_refuted). Not modelled: the GIF encoding by PIL.
* **C70** (partial): C70_rebuilt, C70_runs, C70_names, C70_again and C70_written for all decompiled grfs without repeated ranges whose references stay within one feature. Found: a range listed twice in a switch is printed as one dict entry, the later value at the earlier place (C70_repeated_range_refuted); subroutines are not printed (C70_subroutines_refuted); actions given inline are not printed and the program stops with an exception (C70_inline_refuted); references across features make the rebuilt grf raise (C70_mixed_features_refuted). The other printed arguments are one opaque value, taken to read back as printed.
* **C71** (partial): C71_printed_reads_back, C71_text_tells_actions_apart, C71_names_bound, C71_decompiled, C71_repr_reads_back for all printable actions; SpecPython is a reader of the part of Python that is printed. The pretty printer (actions.py PrettyPrinter and what it inherits from CPython 3.11 pprint) is modelled too and meets the assumption (C71_pretty_printer, C71_pretty_value: wrapped bytes, lists, tuples and dicts of any depth), so C71_decompiled_again has no assumption: ten kinds of records decoded, printed, read, built and written again are read as the same record. Found: If and ComputeParameters with bytes values raise when printed (C71_bytes_values_refuted); sprite layouts print SpriteRef, which the program neither imports nor binds (C71_sprite_layouts_refuted); the pretty printer drops every str value of a dict or list that does not fit on a line, because str has an attribute format (C71_strings_dropped_refuted). Not covered: property values of library classes with their own printing (industry layouts, sprite layout lists), UnicodeGlyphs (has no py), code of several lines containing quotes or backslashes, which are printed unescaped.
* **C72** (partial): C72_tint, C72_transparency, C72_draws for every history of pictures; C72_off, C72_no_sprites. Found: with the option on, no grf containing a sprite can be written at all, since the sprite map has the wrappers as keys but is asked for the sprites (C72_debug_refuted: KeyError, always); and the first picture of palette indices drawn at a zoom level has elements of eight bytes (C72_first_use_refuted). The search for the nearest colour is a parameter (the entries 1 to 255 of a table); C39 has the search itself.
* **C73** (partial): C73_accepted, C73_refused, C73_get, C73_get_none, C73_found; C73_slots_partial if every depth is given and is 8 or 32. Otherwise false: a sprite without a depth beside one with the depth of its picture, or depths 24 and 32, are accepted and clash (C73_slots_refuted); two sprites without depths whose pictures do not clash are refused (C73_depths_refuted); no sprites at all are accepted (C73_none_refuted).
* **C74** (partial): C74_graphics, C74_sounds, C74_stray, C74_unannounced (any records before and after), C74_reads, C74_distinct, C74_files, C74_counted. Found: the sizes printed are four bytes too many for each record (C74_sizes_refuted); an action announcing no sprites takes the next stray one (C74_nothing_refuted); recolour sprites are not counted as sprites of their group, and are decoded as actions 0 (C74_recolour_refuted). Container version 2 only; an inline sound (FF) always makes its decoder raise.
* **C75** (partial): C75_resolved (sprites of alpha alone are left out), C75_pixels, C75_total (exact condition of success). C75_channels_partial: for groups whose sprites have the same kinds of channels. Found: in other groups a palette sprite is printed as a transparent picture with a mask and a sprite of colours gets a mask of index 255 (C75_mixed_refuted); a grf with two sprites of the same pixels and offsets that were compressed differently cannot be decompiled: AssertionError (C75_encodings_refuted).
* **C76** (partial): C76_runs (the text is a program, C76_read_once: in one way only, and it adds the pictures), for sprites with channels. Found: the sprites of one number, its zoom levels and colour depths, are added as separate sprites, so all later ones are shifted (C76_alternatives_refuted); for sprites without channels the program uses EMPTY_SPRITE, which it does not import (C76_empty_refuted).
* **C77** (partial): C77_runs (program, order, contents of the files), C77_files (no file is written twice), C77_graphics (announced graphics are read as graphics); C77_sounds_partial: every announced sound's file holds the bytes of the sound and the byte after its record. Found: so no sound is extracted unchanged, and sounds grow each time a grf is decompiled and built again (C77_sounds_refuted). Sounds with a negative size (a record too short for its name) are left out.
* **C78** (partial): Proved in full for VehicleSpriteTable: C78_numbers, C78_sets, C78_written (1 to 65535 rows), C78_features, C78_layout, C78_purchase, C78_purchase_accepted. Found: a plain SpriteTable takes rows but can never be written, its width is never set (C78_plain_refuted). Sprites are arbitrary values: what a sprite writes itself is C13 and following.
* **C79** (proved): C79_reads_back, C79_apart, C79_rest, C79_made, C79_lines. A sprite is taken to draw inside its own rectangle (its draw method is the user's: the base class raises). Pillow is modelled as a function from coordinates to colour indices. With a negative padding sprites overlap (C79_negative); the property is stated from 0.
* **C80** (partial): C80_flags, C80_flag_range (flags other than 0 to 31 raise), C80_flag_names, C80_depot, C80_override, C80_override_numbers. Found: a negative depot offset cannot be written although the offset is signed (C80_depot_negative_refuted). The engine is SpecSettings.sets.
* **C81** (partial): Equivalence: C81_map_equivalence, C81_switch_equivalence, C81_define_equivalence, C81_properties_equivalence (C81_references, C81_strings, C81_description: equality of all attributes). Records: C81_map_record, C81_map_record_ordered, C81_define_record (for values whose equality implies equal bytes: not dictionaries with several entries), C81_properties (equal iff the same tree with entries reordered), C81_properties_record, C81_switch_record. Found: Switch.__eq__ ignores the subroutines, so equal switches can write different records (C81_switch_subroutines_refuted); an Action3 without ids writes the default itself, so 5 and CB(5) are equal and only one can be written (C81_map_no_ids_refuted); references to different actions without ids are equal (C81_map_unresolved_refuted).
* **C82** (partial): C82_effect_partial: with wagon_power=False effect and position are read as asked. Found: the property is false. With wagon_power=True, the default, the result is always 0x7f: the effect is off (C82_powered_refuted); wagon power can never be turned off, 0x7f should be 0x80 for not wagon_power (C82_wagons_refuted); no combination is read as asked (C82_never_as_asked_refuted). How the game reads the number is engine_reads in PropsVisual.v.
* **C83** (proved): C83_squares, C83_size. The numpy array is a function from coordinates; slices beyond its edge are empty.
* **C84** (partial): C84_layout: what get_data writes for an object with these attributes. C84_read: the fields the decompiler reads are the same, with an extra empty string at the end. Found: the constructor has no strings parameter and always raises (C84_cannot_be_made_refuted); the decompiler then names a class that does not exist, so no grf with an Action 13 can be decompiled (C84_cannot_be_read_refuted).
* **C85** (partial): C85_prepared_first_partial: for sprites without WithMask and a cache none of whose files is missing. C85_cached_untouched, C85_clean_build. Found: the property is false otherwise. WithMask inherits the empty prepare_files, so its files are read without being prepared (C85_mask_refuted); a sprite listed in the index of the cache while its file is gone is not prepared and then read (C85_lost_cache_file_refuted).
* **C86** (proved): C86_totals, for actions whose data python hash() does not confuse (as C29).
* **C87** (proved): In exact arithmetic on triples of numbers: the rounding of numpy floats and NaN are not modelled; a negative index, which python counts from the end, is refused by the model. C87_array needs a range that is not empty.
* **C88** (proved): The dump of no byte is the empty string, which str_hex refuses (C88_nothing). Of the texts int(x, 16) accepts only hexadecimal digits are modelled.
* **C89** (proved): Sizes below 2^53, whose floats are exact. Just below a boundary the smaller unit is kept (1048575 prints as 1024.00 KiB), which the statement allows.
* **C90** (partial): Everything but from_constant, which is false of the code: it has no return statement and gives None (C90_from_constant_refuted). Of a variable only var, start and size are modelled, with sizes that are not negative; the property and variable tables of the game's own features are not part of this model.

## Testing the theorems against wrong programs
`seeded/LOG.jsonl` has one line per seeded bug: the edited definition, the edit, the claim it
breaks, whether the build failed, the theorems that failed and what was tightened when a bug survived.
Survivors that remain are edits that do not change any claim (equivalent mutants, or behaviour no
property speaks about); the line says so.

## Findings: where the code does not do what its users rely on
Each has a `_refuted` theorem or follows from the model; grouped by area.

* **Numbering and scheduling**: the reordering in `_enumerate_sprites` is dead code; a resource action listed twice breaks
  load/unload; deduplication of sprites trusts hash equality; ids loaded from id_map.json are not protected and
  `BaseNewGRF.reserve_ids` has the wrong arity; numbered references to listed actions drop them, forward or shared listed
  references come in the wrong order, explicit ids collide with automatic ones, mutually referring actions vanish.
* **Cache and writing**: a process that dies while storing a key listed in index.json leaves half a sprite that is served later;
  interrupts leave the temporary file; a cross-device move may truncate the target; `write()` returns an empty
  watched set as soon as there is a resource; `debug_zoom_levels=True` raises KeyError; cache keys do not see attributes assigned
  to a WithMask/QuantizeSprite after construction and do not tell equally named classes of different modules apart.
* **Actions**: negative layout offsets, height 128, palette and delta registers, features 0A/14, re-encoding of basic layouts;
  RandomSwitch relative scope; IndustryProductionCallback's first byte; ErrorMessage's stray byte and inverted test; Action 12 drops its
  glyphs; Comment writes zeros; Action 3 loses the wagon override flag; Action 4 texts containing NUL.
* **Properties**: `validate` is never called (and two of them would raise); shadowed 'produciton_multipliers';
  several tables have a wrong format code; station/tile layouts lose registers and children; sizes above 15.
* **Strings and sounds**: more than 3072 global strings overlap persistent ones; user names GRFPY_n collide; RAWSound(path) twice gets two ids.
* **Switch code**: tables for STATION related scope and TOWN are missing; `(a | b) & c` and `(a << b) | c` print without
  needed brackets; `u/`, `u%`, `hasbit` print as text the parser cannot read; AssignVariable.format always raises; after a
  syntax error everything read so far is dropped and no exception raised.
* **Library**: add_articulated_part loses a unit for odd lengths; railtype re-adding a first label breaks ids; DisableDefault with a
  generator disables nothing; callback flags wrong for several features; aircraft properties silently ignored;
  industry buildings that are not square claim the wrong tiles and their pieces lose the zoom;
  a label listed twice in set_cargo_table shifts the ids after it; long trains without liveries never build, liveries of
  articulated parts are not checked and their weight is replaced by the train's; fast road vehicles drop the program's change_properties.
* **Printed programs**: the pretty printer prints nothing for a str value of a dict or list wider than 120 columns (str has an attribute `format`, which it takes for its own hook), so wide SetProperties written with str values print invalid Python.
* **Decompiler**: self-overlapping copies fail; decode_action13 uses a name that does not exist; sounds get one extra byte;
  a decompiled recolour sprite is written with 258 bytes; a missing text terminator in Action 14 loops forever;
  more than 100 equal sound names raise.
* **Sprites**: 24bpp crop removes opaque black borders; restore_rgba_image ignores mirrored views; FileSprite(file, 0, 0, w, None)
  ignores w; a key colour on a palette image raises; fix_palette converts the transparent index 0 like a colour;
  QuantizeSprite of a MoveSprite/WithMask/EmptySprite raises.
* **Voxels**: a model deeper than wide is torn apart (the width is subtracted where the depth should be, in bytes); voxels whose
  nearest colour is 1 are left out; at 4x the background cuts off the lower tip of left faces only; the first two side views
  measure depth along the wrong axis, so their picture depends on the order of voxels in the file.
* **Watch mode and live reload**: changes saved during the first build, or to a file a running build uses for the first time, are
  never noticed; text after the last newline and everything printed after the end marker is not sent; passwords with `@`, `:` or
  NUL are misread.
* **Previews**: make_rgba_image of a true-colour sprite with an empty mask raises; save_gif raises for radio tower colours and for
  sprites without animated colours, and never animates the fizzy-drink colours.
* **generate_python**: a range listed twice is merged, subroutines of switches and inline actions are not printed (the latter make
  the program fail), references across features make the rebuilt grf raise; a decompiled grf written directly, without printing,
  loses the actions that are referenced by number.
* **Printed actions**: If and ComputeParameters with bytes values raise when printed; sprite layouts print SpriteRef, which the
  printed program does not define; UnicodeGlyphs has no py method; a switch code of several lines is printed between triple
  quotes without escaping.
* **Zoom debug builds**: write(debug_zoom_levels=True) raises KeyError for every grf with a sprite; the first picture of palette
  indices drawn at a zoom level would be compressed with eight bytes per index.
* **Alternative sprites**: a sprite without a depth beside one with the depth of its picture, or depths 24 and 32, are accepted
  although they fill the same slot of the game.
* **Decompiler bookkeeping**: printed sizes are four bytes too many per record; an action announcing no sprites captures the next
  stray one; recolour sprites announced by actions 5 and A are decoded as actions 0 and not counted.
* **Decompiled sheets**: a grf with two sprites of the same pixels and offsets compressed in different ways makes the decompiler
  stop with an AssertionError; in a group that mixes palette sprites with coloured ones, the former are printed as transparent
  pictures with a mask and the latter with a mask of index 255.
* **Decompiled graphics statements**: the zoom levels and depths of one sprite are added as separate sprites (later sprites get
  other numbers); EMPTY_SPRITE is used without being imported.
* **Decompiled sounds**: each extracted sound is one byte too long (the first byte of the next record), so sounds grow with every
  decompile and rebuild.
* **Sprite tables and settings**: a plain SpriteTable takes rows but its width is never set, so it cannot be written; a negative
  depot offset cannot be written.
* **Comparing actions**: Switch.__eq__ ignores the subroutines; references to different actions without ids are equal; an Action3
  without ids writes its default unconverted, so of 5 and CB(5), which are equal, only 5 can be written.
* **Visual effects**: Train.visual_effect_and_powered returns 0x7f (effect off) for every effect with powered wagons, the default,
  and can never turn wagon power off.
* **Translations**: the constructor raises NameError for all arguments; the decompiler raises AttributeError for all such records.
