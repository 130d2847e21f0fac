{"id": "C01", "title": "Extended-byte codec is exact", "statement": "encode_extended_byte accepts exactly the values 0..65535, its output followed by any bytes is read back by read_extended_byte as the same value leaving exactly those bytes, and the output is one byte exactly for values below 255.", "quantifier": "every integer value and every trailing byte string", "why_tests_cant": "all 65536 values and all trailing data; rejection of every other integer", "anchors": ["grf/common.py: read_extended_byte, encode_extended_byte"]}
{"id": "C02", "title": "Date arithmetic is the Gregorian day count", "statement": "Date(y,m,d).to_days() counts days from 1 Jan of year 0 in the proleptic Gregorian calendar: 0 for 0-01-01 and exactly one more for each following calendar day; hence distinct valid dates give distinct counts, ordered like the dates, and the day number maps back to one date only.", "quantifier": "every valid calendar date with year >= 0", "why_tests_cant": "infinitely many years; leap-year rules interact over 400-year cycles", "anchors": ["grf/common.py: Date.to_days, days_till, is_leap_year, ACCUM_DAYS_FOR_MONTH"]}
{"id": "C03", "title": "Date properties survive encoding", "statement": "A date property written by DateProperty.encode (datetime.date, Date or day count) and read back by DateProperty.read gives the same day; day counts outside the datetime range come back as the integer itself.", "quantifier": "every datetime.date from year 1 to 9999, every 32-bit day count, every following byte string", "why_tests_cant": "3.6 million dates and 2^32 counts", "anchors": ["grf/actions.py: DateProperty", "grf/common.py: date_to_days, days_to_date"]}
{"id": "C04", "title": "Sprite references round-trip", "statement": "SpriteRef.from_grf(SpriteRef.to_grf(r)) == r for every constructible reference, and to_grf(from_grf(d)) == d for every 32-bit word, under either global_if_flagged convention; the two conventions differ only in the meaning of the top bit.", "quantifier": "every SpriteRef with non-negative id/pal and every 32-bit word, both flag conventions", "why_tests_cant": "2^32 words", "anchors": ["grf/actions.py: SpriteRef.to_grf, SpriteRef.from_grf"]}
{"id": "C05", "title": "Structured property values round-trip", "statement": "For each Action 0 property format (numbers, labels, label lists, byte lists, dates, ids and extended ids, climate masks, tile acceptance, size tuples, multi-dictionaries, bridge layouts, industry layouts, station layouts), a value the encoder accepts is encoded as the NewGRF format says and is read back as the same value (up to normal form: object ids become numbers, lists become tuples), consuming exactly the encoded bytes.", "quantifier": "every value the property's encoder accepts, every following byte string", "why_tests_cant": "unbounded lists and nested layouts", "anchors": ["grf/actions.py: IDProperty, ClimateProperty, ByteListProperty, TileAcceptanceProperty, SizeTupleProperty, MultiDictProperty, BridgeLayoutProperty, IndustryLayoutProperty", "grf/decompile.py: read_property"]}
{"id": "C06", "title": "Property definitions (Action 0) round-trip", "statement": "DefineMultiple.get_data followed by decode_action0 gives back the same feature, first id, count and, per property, the same values in order.", "quantifier": "every feature, id and list of properties with values the encoder accepts", "why_tests_cant": "unbounded property lists and value lists", "anchors": ["grf/actions.py: DefineMultiple.get_data, DefineMultiple._encode_value", "grf/decompile.py: decode_action0, read_property"]}
{"id": "C07", "title": "Sprite set headers (Action 1) round-trip", "statement": "SpriteSet.get_data is decoded back to the same feature, first set id, set count and sprites per set whenever the decoder's two header forms do not overlap; the ambiguous header is exactly the one with a zero set count and no first set.", "quantifier": "every feature, first set id, set count, sprite count", "why_tests_cant": "all 16-bit counts, both header forms", "anchors": ["grf/actions.py: Action1", "grf/decompile.py: decode_action1"]}
{"id": "C08", "title": "Sprite group tables (generic layouts) round-trip", "statement": "A GenericSpriteLayout's encoded loaded/loading set lists are decoded back to the same lists in order and nothing else is read.", "quantifier": "all lists of set ids the format can tell from a switch record (first list not 128-134, 137 or 138 long, both under 256)", "why_tests_cant": "unbounded contents", "anchors": ["grf/actions.py: GenericSpriteLayout.get_data", "grf/decompile.py: decode_action2"]}
{"id": "C09", "title": "Tile sprite layouts round-trip", "statement": "BasicSpriteLayout and AdvancedSpriteLayout data are decoded back to the same ground sprite, building sprites, offsets, extents and register flags.", "quantifier": "all ground sprites, building lists and flag sets", "why_tests_cant": "unbounded building lists, all flag combinations", "anchors": ["grf/actions.py: BasicSpriteLayout, AdvancedSpriteLayout", "grf/decompile.py: read_sprite_layout, read_advanced_sprite_layout", "grf/parser.py: SPRITE_FLAGS"]}
{"id": "C10", "title": "Switch encoding chooses the branch the user wrote", "statement": "For every value of the switch expression, the branch the game picks from the encoded unsigned range list (first matching range, else default) is the one the user's range table assigns to that value seen as a signed 32-bit number.", "quantifier": "every list of ranges (low <= high in each), every 32-bit value", "why_tests_cant": "2^32 values against unbounded range lists, including ranges across zero", "anchors": ["grf/actions.py: Switch.get_data, Switch.__init__, Range"]}
{"id": "C11", "title": "Switch records round-trip", "statement": "Switch.get_data followed by the decoder gives the same feature, id, scope, code, ranges and default.", "quantifier": "every switch the encoder accepts", "why_tests_cant": "unbounded code and ranges", "anchors": ["grf/actions.py: Switch.get_data", "grf/decompile.py: decode_action2"]}
{"id": "C12", "title": "Random switch records round-trip", "statement": "RandomSwitch.get_data followed by the decoder gives the same scope, count register, triggers, lowest bit, comparison mode and groups.", "quantifier": "every scope, trigger set and power-of-two group list", "why_tests_cant": "all group lists and scopes", "anchors": ["grf/actions.py: RandomSwitch.get_data", "grf/decompile.py: decode_action2"]}
{"id": "C13", "title": "Feature maps (Action 3) round-trip", "statement": "An Action3 with at least one id is decoded to the same ids, per-type maps and default, and whether it is a wagon override is preserved.", "quantifier": "all id lists, override flags, maps and defaults", "why_tests_cant": "unbounded lists, flag bit shared with the count", "anchors": ["grf/actions.py: Action3.get_data", "grf/decompile.py: decode_action3"]}
{"id": "C14", "title": "String definitions (Action 4) round-trip", "statement": "DefineStrings with NUL-free strings is decoded to the same feature, language, first id, generic flag and strings.", "quantifier": "all string lists up to 255 entries", "why_tests_cant": "unbounded strings", "anchors": ["grf/actions.py: DefineStrings.get_data", "grf/decompile.py: decode_action4"]}
{"id": "C15", "title": "Sprite replacement records round-trip", "statement": "ReplaceNewSprites (Action 5) and ReplaceOldSprites (Action A) are decoded to the same set type, counts, offsets and ranges.", "quantifier": "all set types, counts, offsets, range lists", "why_tests_cant": "16-bit counts around the extended-byte boundary", "anchors": ["grf/actions.py: ReplaceNewSprites, ReplaceOldSprites", "grf/decompile.py: decode_action5, decode_actionA"]}
{"id": "C16", "title": "Parameter patches (Action 6) round-trip", "statement": "ModifySprites is decoded to the same list of patches, whatever the parameters, sizes and offsets, and terminates at the 0xFF marker.", "quantifier": "all patch lists", "why_tests_cant": "unbounded lists with a sentinel terminator", "anchors": ["grf/actions.py: ModifySprites", "grf/decompile.py: decode_action6"]}
{"id": "C17", "title": "Conditional skips (Action 7/9) round-trip", "statement": "If is decoded to the same static/dynamic kind, variable, condition, value, size and skip count.", "quantifier": "all variables, condition codes, value sizes and values", "why_tests_cant": "every width/condition combination and 2^32 values", "anchors": ["grf/actions.py: If.get_data", "grf/decompile.py: decode_action7"]}
{"id": "C18", "title": "Parameter assignments (Action D) round-trip", "statement": "ComputeParameters is decoded to the same target, operator, defined-only flag, sources and, when present, the same 32-bit value.", "quantifier": "all targets, operators, sources and values", "why_tests_cant": "2^32 values", "anchors": ["grf/actions.py: ComputeParameters", "grf/decompile.py: decode_actionD"]}
{"id": "C19", "title": "GRF information tree (Action 14) round-trips", "statement": "SetProperties written from any nested property tree is decoded back to the same tree: same tags, types, text languages, binary sizes and nesting, in order.", "quantifier": "every finite nested property tree", "why_tests_cant": "unbounded nesting depth", "anchors": ["grf/actions.py: SetProperties.get_data", "grf/decompile.py: decode_action14"]}
{"id": "C20", "title": "Small records round-trip", "statement": "SetDescription (Action 8), Label (Action 10), SoundEffects (Action 11), ImportSound (Action FE) and Comment (Action C) are decoded to what was written.", "quantifier": "all fields and texts", "why_tests_cant": "unbounded texts", "anchors": ["grf/actions.py: SetDescription, Label, SoundEffects, ImportSound, Comment", "grf/decompile.py: decode_action8, decode_action10, decode_action11, decode_actionFE"]}
{"id": "C21", "title": "Compiled switch code computes the expression", "statement": "Running the code emitted for an expression on the game's VarAction2 evaluator yields the value the expression denotes (32-bit arithmetic, operands evaluated on the same inputs), with the same effects on user registers and permanent storage, for expressions whose parameters are constants and which do not touch the compiler's own registers.", "quantifier": "every expression tree and every initial register/variable state", "why_tests_cant": "unbounded expression trees, all inputs", "anchors": ["grf/parser.py: Expr.compile, Value.compile, Var.compile, Temp.compile, Perm.compile, GenericVar.compile, AssignVariable.compile", "grf/actions.py: Switch.get_data, CodeContext"]}
{"id": "C22", "title": "Compiler temporaries never clash", "statement": "Registers handed out while compiling a switch are all in 0x80..0xFF, never handed out twice while in use, never reuse a named variable's register, and the same name always gets the same register; when none is left compilation fails instead of reusing one.", "quantifier": "every history of reserve/release/name requests", "why_tests_cant": "all interleavings of requests", "anchors": ["grf/actions.py: CodeContext"]}
{"id": "C23", "title": "Comparison simplification preserves meaning", "statement": "Replacing the NML encodings of comparisons and bit tests (sequences of CMP/XOR/MIN/... with constants) by comparison operators never changes the value of a decompiled expression.", "quantifier": "every expression tree and all 32-bit operand values", "why_tests_cant": "2^64 operand pairs, unbounded trees", "anchors": ["grf/parser.py: NML_OPE, NML_OPE_PARSE, Expr.simplify"]}
{"id": "C24", "title": "Actions are written before they are referenced", "statement": "After reference resolution every action that is referenced by another appears in the written order before its user, and at the user's position the most recent action carrying the referenced id is the referenced action; automatic ids are in 1..255.", "quantifier": "every list of actions and acyclic reference graph of any size in which referenced actions are passed inline (not listed themselves, no explicit ref_id, no reference by number)", "why_tests_cant": "all DAG shapes and id reuse patterns", "anchors": ["grf/grf.py: BaseNewGRF.resolve_refs"]}
{"id": "C25", "title": "Reference resolution keeps every listed action", "statement": "Every action the user added is present in the written order exactly once, in the order it was added, and nothing unreferenced is invented.", "quantifier": "every list of actions and acyclic reference graph of any size in which referenced actions are passed inline", "why_tests_cant": "all graphs, including references by explicit id and cycles", "anchors": ["grf/grf.py: BaseNewGRF.resolve_refs"]}
{"id": "C26", "title": "Real sprites get distinct ids", "statement": "After enumeration each resource action listed has an id, ids are exactly 1..n, no two different resource actions share one, and every listed resource is scheduled exactly once.", "quantifier": "every list of resource actions and file dependencies", "why_tests_cant": "all orderings and sharing of files", "anchors": ["grf/grf.py: BaseNewGRF._enumerate_sprites"]}
{"id": "C27", "title": "Files are loaded before use and released after the last use", "statement": "Following the schedule returned by enumeration, every file a sprite needs is loaded when the sprite is encoded, every file is loaded at most once and everything loaded is unloaded by the end.", "quantifier": "every list of resource actions and file dependencies", "why_tests_cant": "all sharing patterns", "anchors": ["grf/grf.py: BaseNewGRF._enumerate_sprites, _do_write"]}
{"id": "C28", "title": "Written container is readable", "statement": "The bytes write produces parse (header, data offset, pseudo sprites, resources, terminators) into exactly the sequence of actions and resources supplied, and the stored data offset points to the resource section.", "quantifier": "every list of actions and resources", "why_tests_cant": "unbounded content", "anchors": ["grf/grf.py: BaseNewGRF._do_write, _write_pseudo_sprite", "grf/decompile.py: read, read_pseudo_sprite"]}
{"id": "C29", "title": "Duplicate elimination is invisible", "statement": "After duplicate resources are dropped and references patched, each reference in the written file still leads to resource data identical to that of the action it came from, provided equal hashes mean equal data.", "quantifier": "every list of resources with arbitrary repetitions", "why_tests_cant": "all repetition patterns", "anchors": ["grf/grf.py: BaseNewGRF._do_write"]}
{"id": "C30", "title": "Automatic ids never collide", "statement": "Within one session, ids resolved for different names of one feature are different, differ from every id the user gave explicitly before, explicit ids that would collide later are refused, and resolving a name again gives the same id.", "quantifier": "every history of resolve calls", "why_tests_cant": "all interleavings of named and explicit requests", "anchors": ["grf/grf.py: IDMap.resolve, BaseNewGRF.resolve_id"]}
{"id": "C31", "title": "Automatic ids are stable across runs", "statement": "After save and load in a new session every name resolves to the id it had, and new names do not get ids already used.", "quantifier": "every history of sessions", "why_tests_cant": "all histories across sessions", "anchors": ["grf/grf.py: IDMap.save, IDMap._load, IDMap.resolve"]}
{"id": "C32", "title": "Sprite cache behaves like a map", "statement": "Between load and save, get returns the bytes last stored for the key (in this or an earlier session) or nothing, never another key's bytes; after save exactly the keys used in the session remain.", "quantifier": "every sequence of sessions of get/set operations", "why_tests_cant": "all histories", "anchors": ["grf/cache.py: SpriteCache"]}
{"id": "C33", "title": "Sprite cache survives crashes", "statement": "After a crash at any point of a session a later session never receives bytes for a key that were not stored in full for that key.", "quantifier": "every history with a crash at any step", "why_tests_cant": "all crash points", "anchors": ["grf/cache.py: SpriteCache.load, SpriteCache.set, SpriteCache.save"]}
{"id": "C34", "title": "Sound numbering", "statement": "Sound effects get consecutive ids from 73; the same sound always gets the same id; different sounds get different ids; the 184th distinct sound is refused and never wraps.", "quantifier": "every sequence of added sounds", "why_tests_cant": "all repetition patterns", "anchors": ["grf/grf.py: BaseNewGRF._add_sound"]}
{"id": "C35", "title": "String numbering", "statement": "Texts registered with the string manager get ids such that each id's emitted string definition is that text; equal texts share an id; different texts have different ids.", "quantifier": "every sequence of registrations", "why_tests_cant": "all histories, including more strings than the id space holds", "anchors": ["grf/strings.py: StringManager.add, add_persistent, get_actions, get_persistent_actions"]}
{"id": "C36", "title": "Combining ids into runs loses nothing", "statement": "combine_ranges splits any set of ids into runs of consecutive ids, each no longer than 255, that together contain exactly the given ids.", "quantifier": "every list of ids", "why_tests_cant": "all id sets", "anchors": ["grf/lib/misc.py: combine_ranges, DisableDefault"]}
{"id": "C37", "title": "Purchase-list order is realised", "statement": "After the reorder actions generated by SetPurchaseOrder are applied by the game, the listed vehicles appear in the requested order.", "quantifier": "every list of different vehicles and (nested) variant groups, and every purchase list of the game that has them", "why_tests_cant": "all permutations", "anchors": ["grf/lib/vehicle.py: SetPurchaseOrder, VariantGroup"]}
{"id": "C38", "title": "Articulated train lengths add up", "statement": "A train head longer than one engine unit is split so that the parts' lengths add up to the requested length and every part is between 1 and 8; lengths above 24 are refused. Articulated parts added later are split in the same way.", "quantifier": "every requested length of at least 1", "why_tests_cant": "all lengths and part combinations", "anchors": ["grf/lib/train.py: Train._calc_length_articulation, Train.__init__"]}
{"id": "C39", "title": "Railtype fallback chains pick the first available type", "statement": "The generated conditional actions leave, in each railtype table slot, the first available label of the user's fallback list (or the last label if none is available).", "quantifier": "every list of fallback lists with different first labels, every availability set, and every rest of the file without an Action 10 label in the range of the skips", "why_tests_cant": "all availability subsets", "anchors": ["grf/grf.py: NewGRF._generate_railtype_table, NewGRF.add_railtype"]}
{"id": "C40", "title": "Brightness adjustment stays in range", "statement": "openttd_adjust_brightness returns colour components in 0..255 for every colour and brightness and is the identity at the default brightness.", "quantifier": "all 2^24 colours times 256 brightness values", "why_tests_cant": "2^32 combinations", "anchors": ["grf/colour.py: openttd_adjust_brightness"]}
{"id": "C41", "title": "Sprite decompression inverts compression", "statement": "For every compressed stream that describes a pixel sequence by literal and copy blocks, the decompiler recovers that sequence.", "quantifier": "every block stream", "why_tests_cant": "all streams, including self-overlapping copies", "anchors": ["grf/decompile.py: decode_sprite"]}
{"id": "C42", "title": "Chunked (tile) sprite decoding places every run", "statement": "Decoding a chunked sprite yields an image whose rows contain each chunk's pixels at the chunk's offset and transparent pixels elsewhere.", "quantifier": "every image and every chunking of it", "why_tests_cant": "all images and run splits", "anchors": ["grf/decompile.py: decode_chunked"]}
{"id": "C43", "title": "Decompiled resource names are unique", "statement": "Names handed out for extracted resources are pairwise different.", "quantifier": "every sequence of requested names", "why_tests_cant": "all collision patterns", "anchors": ["grf/decompile.py: find_unique_resource_name"]}
{"id": "C44", "title": "A failed build leaves the output untouched", "statement": "If writing fails at any point before the final move, the target file's previous content is unchanged and no temporary file remains.", "quantifier": "every failure point", "why_tests_cant": "every crash/exception point", "anchors": ["grf/grf.py: BaseNewGRF.write"]}
{"id": "C45", "title": "Cropping keeps every visible pixel in place", "statement": "Automatic cropping changes a sprite's size and offsets but every non-transparent pixel is still drawn at the same position relative to the sprite origin, and only transparent pixels are dropped.", "quantifier": "every image and offset", "why_tests_cant": "all images", "anchors": ["grf/sprites.py: Sprite._do_crop, Sprite.get_real_data"]}
{"id": "C46", "title": "Real sprite records round-trip", "statement": "Pixel layers written by get_real_data are read back by the decompiler as the same size, offsets and layers (given a compressor whose output decompresses to its input).", "quantifier": "every size and layer combination", "why_tests_cant": "all images and layer combinations", "anchors": ["grf/sprites.py: Sprite.get_real_data", "grf/decompile.py: read_real_sprite, decode_sprite"]}
{"id": "C47", "title": "Callback switches dispatch to the user's callback", "statement": "In the switch built from a callback manager, each callback id with a user callback leads to that callback, every other callback id leads to the graphics, both in the normal and the purchase-list context, and the callback flag property has exactly the flags of the callbacks set.", "quantifier": "every assignment of callbacks", "why_tests_cant": "all subsets of callbacks and contexts", "anchors": ["grf/lib/callback.py: CallbackManager.make_switch, set_flag_props, Properties.make_switches"]}
{"id": "C48", "title": "Printed expressions parse back", "statement": "The text form of an expression parses to the same expression.", "quantifier": "every expression tree", "why_tests_cant": "unbounded trees, precedence and associativity", "anchors": ["grf/parser.py: Expr.format, grammar rules"]}
{"id": "C49", "title": "Recompiling a decompiled record reproduces it", "statement": "Whatever record bytes the decompiler accepts (actions 1, 4, 5, 6, 7, 9, A, D), the action object it builds can be written by get_data, and decoding what is written gives the same action object again.", "quantifier": "every byte string the decoder accepts", "why_tests_cant": "The input is every byte string, including ones no encoder writes.", "anchors": ["grf/decompile.py: decode_action1/4/5/6/7or9/A/D", "grf/actions.py: get_data of the matching classes"]}
{"id": "C50", "title": "Error messages (Action B) round-trip", "statement": "Error.get_data followed by decode_actionB gives the same severity, language, message (built-in number or text), text parameter and parameters.", "quantifier": "every Error action", "why_tests_cant": "Ranges over all messages and parameters.", "anchors": ["grf/actions.py: Error/ActionB", "grf/decompile.py: decode_actionB"]}
{"id": "C51", "title": "Font glyph records (Action 12) round-trip", "statement": "LoadFontGlyphs keeps the glyph list given to it, writes it, and decode_action12 returns it.", "quantifier": "every glyph list", "why_tests_cant": "Ranges over all glyph lists.", "anchors": ["grf/actions.py: Action12", "grf/decompile.py: decode_action12"]}
{"id": "C52", "title": "Industry production callbacks are read and written in the NewGRF format", "statement": "An industry production callback record in NewGRF layout (words in version 0, bytes in version 1, counted pairs in version 2) is decoded to exactly its inputs, outputs and repeat register, and IndustryProductionCallback.get_data writes that layout.", "quantifier": "every version, every list of inputs and outputs", "why_tests_cant": "unbounded lists and all values", "anchors": ["grf/actions.py: IndustryProductionCallback", "grf/decompile.py: decode_action2"]}
{"id": "C53", "title": "Everything added is written", "statement": "The actions of a written file are exactly the actions added to the NewGRF, in the order of the add() calls, with generators replaced by the actions they generate and sprites wrapped in resource actions; every sound that was added or is referenced has a sound id.", "quantifier": "every sequence of add() calls and writes, every nesting of generators", "why_tests_cant": "unbounded nesting and histories", "anchors": ["grf/grf.py: BaseNewGRF.add, generate_sprites, _add_sound, _do_write"]}
{"id": "C54", "title": "write() reports the files it depends on", "statement": "The set returned by write() contains exactly the resource files used by the resource actions of the NewGRF.", "quantifier": "every list of actions", "why_tests_cant": "all action lists", "anchors": ["grf/grf.py: BaseNewGRF.write, _do_write"]}
{"id": "C55", "title": "String escapes compile to the bytes they denote", "statement": "grf_compile_string on a string made of ordinary characters, \\\\ and \\\" quotes, \\XX byte escapes and \\UXXXX code point escapes gives the concatenation of the bytes each denotes, preceded by the Unicode marker exactly when the string is not plain ASCII.", "quantifier": "every string of such pieces", "why_tests_cant": "all strings", "anchors": ["grf/strings.py: grf_compile_string"]}
{"id": "C56", "title": "Extracted sprites land in distinct, non-overlapping sheet cells", "statement": "When the decompiler packs extracted sprites into sprite sheets, every sprite is pasted whole at the recorded position of its sheet, no two sprites of a sheet overlap and the recorded position is where the pixels are.", "quantifier": "every sequence of sprite sizes", "why_tests_cant": "all size sequences and row/page breaks", "anchors": ["grf/decompile.py: ParsingContext.save_graphic_resources / sheet placement (1327-1414)"]}
{"id": "C57", "title": "Sound records round-trip", "statement": "A sound resource written by the builder is read back by the decompiler with the same name and the same data.", "quantifier": "every name and every data", "why_tests_cant": "all lengths and bytes", "anchors": ["grf/sprites.py: RAWSound.get_real_data", "grf/decompile.py: read_real_sprite"]}
{"id": "C58", "title": "The RGBA shortcut returns the picture it was asked for", "statement": "When the RGB and alpha layers are recognised as views of one RGBA image, the image handed on has exactly those RGB and alpha bytes at every pixel.", "quantifier": "every base image and every pair of views", "why_tests_cant": "all view geometries", "anchors": ["grf/sprites.py: restore_rgba_image"]}
{"id": "C59", "title": "The sprite cache never changes what is written", "statement": "Two sprites made with the sprite constructors (FileSprite, WithMask, MoveSprite, QuantizeSprite, EmptySprite nested in any way) that get the same cache key encode to the same bytes; so over any sequence of builds sharing one cache directory, interrupted by exceptions or not, with source files edited in between, every build that succeeds writes the bytes it would write with no cache. Changing the modification time of any file a sprite reads changes its key, every file a sprite reads is among the files the key looks at, and only sprites holding in-memory images are never cached.", "quantifier": "all sprite trees, all file system states with honest modification times, all sequences of builds", "why_tests_cant": "collisions between fingerprints and stale entries depend on the history of builds and on every pair of sprites", "anchors": ["grf/sprites.py: CacheableSprite.get_fingerprint, FileSprite, WithMask, MoveSprite, SpriteWrapper, QuantizeSprite", "grf/grf.py: get_sprite_fingerprint, get_sprite_data", "grf/cache.py: hexdigest, SpriteCache"]}
{"id": "C60", "title": "Composed sprites show the right pixels", "statement": "WithMask(sprite, mask) has the size of both and puts the palette index of the mask over every pixel of the sprite where it is not 0, making the pixel neutral and opaque in OVERDRAW mode; masks of another size or with colours of their own are refused. FileSprite shows the rectangle it was given of its file, pixel for pixel, with the key colour transparent, and is refused exactly when the rectangle leaves the image; without a size it shows the whole file. MoveSprite shows the same picture shifted by its offsets, and moves add up.", "quantifier": "all images, masks, rectangles, key colours, offsets and nestings", "why_tests_cant": "per pixel statement over all images and all nestings", "anchors": ["grf/sprites.py: WithMask.get_data_layers, FileSprite.get_image, FileSprite.get_data_layers, MoveSprite, Sprite.get_data_layers, Sprite.get_real_data"]}
{"id": "C61", "title": "Palette conversion keeps colours", "statement": "An 8bpp image in another palette is converted so that every pixel whose colour is in the game palette keeps exactly that colour, any other gets the colour the colour search returns, the size stays, transparency (index 0) stays transparency, and converting again changes nothing. Quantizing a true colour image gives only colours safe from animation and recolouring, transparent exactly where alpha is below 128. A PaletteRemap applies its ranges in order, the last one covering an index wins, and is written as a recolour sprite of a zero byte and 256 entries, from which it can be made again.", "quantifier": "all images, palettes, remap ranges and colour searches", "why_tests_cant": "ranges over all palettes and images", "anchors": ["grf/sprites.py: fix_palette, quantize, PaletteRemap", "grf/decompile.py: write_sprite/recolour", "grf/colour.py: PALETTE, SAFE_COLOURS"]}
{"id": "C62", "title": "An industry shows its buildings where they stand", "statement": "Industry cuts the picture of each building into pieces, one for a tile: every pixel of the picture above the building's ground is shown by exactly one piece, on a tile of the building, and drawing the pieces on their tiles puts every pixel where drawing the whole picture on the front tile would; pieces are not higher than the game draws (231) except at the back edges. For each layout the industry lists exactly the tiles its buildings stand on, refuses overlapping buildings, and the switch over relative_pos selects on every tile the piece of that tile (the empty sprite where there is none).", "quantifier": "every list of layouts, every placement and every size, height and offset of the buildings", "why_tests_cant": "Sizes, offsets and placements are unbounded integers; the pieces, their tiles and their numbers depend on them and on each other.", "anchors": ["/repo/grf/lib/industry.py: Industry.Building.get_sprites, Industry.get_sprites"]}
{"id": "C63", "title": "A file says about itself what its NewGRF was given", "statement": "For NewGRF(...) and any sequence of add_bool_parameter, add_int_parameter, set_cargo_table, add_railtype and write calls, the records written first read back as exactly the name, description, version, minimal version, url, blitter and palette given, and, in the order they were added, parameter i with its name, description, type, default, limits and value names; the id, name and description of Action 8 agree; writing again writes the same. The cargo table written is the one set last, get_cargo_id and map_cargo_labels give the places of the labels in it, and set_cargo_table returns them. Ids of other than four bytes, unknown blitters and more than 255 parameters are refused.", "quantifier": "all constructor arguments, all call sequences (including writes between calls), all texts, numbers and labels within their ranges", "why_tests_cant": "Call sequences and texts are unbounded, and writing changes the state later writes start from.", "anchors": ["/repo/grf/grf.py: NewGRF.__init__, add_bool_parameter, add_int_parameter, set_cargo_table, get_cargo_id, map_cargo_labels, generate_sprites", "/repo/grf/actions.py: SetProperties, SetDescription"]}
{"id": "C64", "title": "Vehicles of the library show and say what they were given", "statement": "For lib.RoadVehicle, lib.Ship and lib.Train with any liveries, purchase sprite, additional text, callbacks and properties: in the game the vehicle is drawn with the sprite of its direction of the livery for its cargo subtype (the first if there is none), the purchase list shows the purchase sprite (or the vehicle), the refit list names the liveries in order and then ends, the additional text is shown, callbacks and properties the program set stay in force. A road vehicle has the speed given, up to rounding; a train longer than 8 is drawn by its middle part only, its articulated parts are the ones added, in order, each drawn with its own livery for the subtype of the first vehicle; sounds, weight and speed are those given.", "quantifier": "all vehicles, liveries, callback histories, properties, lengths, speeds; all parts; all situations (subtype, direction, callback information) in the game", "why_tests_cant": "Any number of liveries and parts combine with any callback program, and the meaning depends on what the game asks at run time.", "anchors": ["/repo/grf/lib/vehicle.py: Vehicle", "/repo/grf/lib/rv.py: RoadVehicle", "/repo/grf/lib/ship.py: Ship", "/repo/grf/lib/train.py: Train", "/repo/grf/lib/object.py: Object"]}
{"id": "C65", "title": "A voxel model is drawn as the cubes it consists of", "statement": "VoxFile(path).make_house_sprite(zoom) of any .vox file draws every voxel as a cube in the game's isometric projection: each pixel shows the shaded face of the nearest voxel covering it, and is transparent exactly where there is none; the sprite is as large as the model needs; at 4x zoom the enlarged faces join without holes and without colours that are not next to the pixel. The picture does not depend on the order of the voxels in the file, nor on chunks of other kinds. The side views of VoxTrainFile show the nearest voxels too.", "quantifier": "all voxel models (any number, position, size and order of voxels, any palette), all zoom levels, every pixel; any depth order and any colour search", "why_tests_cant": "Which voxel is in front and which patterns meet depends on the whole neighbourhood; there are unboundedly many models.", "anchors": ["/repo/grf/vox.py: VoxReader", "/repo/grf/vox.py: VoxFile", "/repo/grf/vox.py: VoxTrainFile"]}
{"id": "C66", "title": "Live reload sends the game the build log and then the reload command", "statement": "`watch --live-reload password@address:port` connects to the stated address with the stated password; whatever the build prints, the bytes sent are a well-formed sequence of admin-port packets that the game reads in exactly one way: join with the password, one chat message per printed line in order, and then - only after a finished build - the command reload_newgrfs. A message too long for a packet is refused, never cut.", "quantifier": "all passwords, addresses and ports; all sequences of printed messages (any chunks, with or without newlines), any text", "why_tests_cant": "Framing errors show only for particular lengths and particular splits of the text into messages; there are unboundedly many.", "anchors": ["/repo/grf/utils.py: ttd_pack", "/repo/grf/utils.py: make_packet", "/repo/grf/utils.py: admin_logging", "/repo/grf/utils.py: watch_func"]}
{"id": "C67", "title": "Watch mode misses no change of a watched file", "statement": "While `watch` runs, a saved change of any file used by the last successful build leads to a rebuild that begins after the change, no matter when it is saved (while the loop sleeps, while a build runs, while it fails); when the loop rests with nothing pending, the grf holds the current contents of every watched file. A failed build keeps the old grf and goes on watching.", "quantifier": "all interleavings of saves, checks, builds, reads by the build, successes and failures, of any length; all sets of files", "why_tests_cant": "It is a race between the editor, the observer thread and the build: the schedule decides.", "anchors": ["/repo/grf/utils.py: watch_func"]}
{"id": "C68", "title": "Previews show what the game shows", "statement": "sprite.make_rgba_image() returns a picture of the sprite's size in which every pixel has the colour and opacity the game shows: 8bpp pixels their palette colour (index 0 transparent), true-colour pixels their own colour, and masked true-colour pixels the palette colour brightened or darkened by the pixel's brightness; opacity from the alpha layer.", "quantifier": "all sprites with any combination of colour, alpha and mask layers, of any size, every pixel", "why_tests_cant": "Every combination of layers takes another path through numpy masking and every pixel value matters.", "anchors": ["/repo/grf/sprites.py: Sprite.make_rgba_image", "/repo/grf/colour.py: openttd_adjust_brightness"]}
{"id": "C69", "title": "Animated previews follow the game's palette animation", "statement": "sprite.save_gif(file) of an 8bpp sprite with animated palette colours saves an animation in which at every tick n, for ever, each pixel has exactly the colour the game's palette animation gives it at that tick; transparent pixels stay transparent; the animation repeats without a jump.", "quantifier": "all 8bpp sprites (any size, any pixels), every pixel, every tick (unbounded), any iteration order of Python sets", "why_tests_cant": "The cycles of different lengths combine over 128 frames; set iteration order is not fixed; pixels and ticks are unbounded.", "anchors": ["/repo/grf/sprites.py: Sprite.save_gif"]}
{"id": "C70", "title": "A decompiled grf printed as Python builds the same grf", "statement": "generate_python on a decompiled grf gives a program that runs and rebuilds the same actions in the same order with the same numbers, features and arguments; each reference becomes the variable of the action it means in the file (the nearest earlier one with that number), callback results and dangling references stay as they are; no variable is assigned twice or used before assignment; calling it again prints the same program; and the rebuilt grf is written with every action in its place and every reference under its original number.", "quantifier": "all decompiled grfs: any number of actions, any reuse of reference numbers, any references, ranges and cargo maps, repeated calls", "why_tests_cant": "Which action a number means depends on everything before it, numbers are reused arbitrarily often, and the rebuilt program goes through reference resolution again.", "anchors": ["/repo/grf/grf.py: BaseNewGRF.generate_python", "/repo/grf/actions.py: Switch.get_refs, Switch.set_refs, Switch.py, RandomSwitch, Action3, _py_ref_dict, ReferenceableAction.py_ref, Ref", "/repo/grf/grf.py: BaseNewGRF.resolve_refs"]}
{"id": "C71", "title": "The Python text printed for an action reads back as that action", "statement": "The statement generate_python prints for an action is one Python expression (whatever its names, strings, bytes, numbers, line breaks and comments are), it reads in one way only, evaluating it calls the constructor with arguments that make an equal action, and it uses only names that the printed program defines, the class of the action, or names its references and values bring along. This covers every record of Action 1, 4 to D, 10, 11, 14 and FE the decompiler can read from any bytes. Only two things may differ: a set of climates is held as the same number, and lines of a switch code are indented differently, which parses alike.", "quantifier": "all actions of 24 classes with any fields: any bytes in strings, any code of a switch, any integers, nested property dictionaries; all records of any bytes; values of any width and depth", "why_tests_cant": "Quoting, escapes, indentation, dedent and strip act on arbitrary text; a quote, backslash or newline at the wrong place changes how everything after it is read.", "anchors": ["/repo/grf/actions.py: py of every action class, _py_dict, _py_ref_dict, ClimateProperty.format, pformat, SpriteRef.py, PrettyPrinter", "/repo/grf/grf.py: BaseNewGRF.generate_python", "/repo/grf/parser.py: parse_code", "/repo/grf/decompile.py: ACTIONS"]}
{"id": "C72", "title": "Zoom debug builds tint every sprite by its zoom level and change nothing else", "statement": "A build with debug_zoom_levels writes the same sprites with the same sizes and transparency, each colour replaced by its tint for the zoom level of the sprite (red at normal size, green at 4x, blue at 2x, cyan, yellow and magenta when zoomed out) and each palette index other than 0 by the nearest tinted colour, whatever was drawn before; a build without it writes the sprites as they are.", "quantifier": "all pictures, all zoom levels, all histories of pictures drawn before, all lists of resources", "why_tests_cant": "The recolour tables are made on first use and kept, so what a picture becomes could depend on what was drawn before it.", "anchors": ["/repo/grf/sprites.py: ZoomDebugRecolourSprite", "/repo/grf/grf.py: _do_write (sprite_map)"]}
{"id": "C73", "title": "Alternative sprites never clash and are found by zoom and depth", "statement": "AlternativeSprites accepts exactly the lists of sprites in which no two have the same zoom level and depth; get_sprite returns the first sprite with the zoom level and depth asked for, and None only if there is none; the records written for the alternatives fill different slots of the game, which tells them apart by zoom level and by having colours or only indices.", "quantifier": "all lists of alternatives with any zoom levels and depths given or not, all queries, all pictures", "why_tests_cant": "Lists of any length; whether two alternatives clash depends on the depth of pictures read from files later.", "anchors": ["/repo/grf/sprites.py: AlternativeSprites, Sprite.get_image, Sprite.get_real_data"]}
{"id": "C74", "title": "Decompiling puts every sprite into the group of the action that announced it", "statement": "In whatever order the records of a grf come, a sprite reference following an action 1, 5 or A that announces sprites belongs to the group of this action, named after the feature (or action5, action_a) and numbered by the groups of this name before it; one following action 11 is a sound; a sprite nobody announced belongs to no group. Different actions have different groups and each group has image files of its own. The statistics printed count each action once, with the bytes it takes.", "quantifier": "all sequences of records with any data, all announcements, all sprite ids", "why_tests_cant": "The attribution is a state machine over the whole file; what a record means depends on everything before it.", "anchors": ["/repo/grf/decompile.py: ParsingContext, decode_action1, decode_action5, decode_actionA, decode_action11, decode_pseudo_sprite, read_pseudo_sprite, save_graphic_resources"]}
{"id": "C75", "title": "The image files the decompiler writes show every extracted sprite where the printed statement says", "statement": "Decompiling a grf writes image files and, for every sprite number, the statements of its sprites in the order of the file. The piece of the image files that a statement names (file, position, size) shows exactly the pixels of the sprite: its colours, its alpha channel and its palette indices, whatever other sprites are painted on the same sheet, whether or not it is a duplicate that gets a frame, and whatever files are written after it. A statement names files for exactly the channels of its sprite. Every grf whose sprites can be decoded can be decompiled.", "quantifier": "all sequences of real sprites of any types, sizes, pixels, offsets and numbers, all attributions of sprites to groups that reading a file can leave, all hash functions, both container versions", "why_tests_cant": "Whether a sprite survives depends on the places of all other sprites of its group and on the duplicates anywhere before it.", "anchors": ["/repo/grf/decompile.py: read, decompile, save_graphic_resources, decode_sprite, decode_chunked, RealGraphicsSprite"]}
{"id": "C76", "title": "The printed statements about graphics are a program that adds the pictures of the file", "statement": "The statements the decompiler prints for the graphics of a grf are Python: every variable of an image file is assigned before it is used and stands for one file only, no name of the library is redefined, every call has the parameters of the library. Running them adds, for every sprite number in the order of the file, the pictures of its sprites, each with the piece of the image files, the size, the offsets and the zoom level it has in the grf. A sprite number of the file stays one sprite.", "quantifier": "all grfs that can be decompiled: all sprites, coordinates, zoom levels and offsets, all groups that reading a file can leave, all sequences of sprite numbers", "why_tests_cant": "The names of the variables come from the contents of the file and must neither collide nor be words of the language; numbers may be negative; the text is parsed by another program.", "anchors": ["/repo/grf/decompile.py: GraphicsSpriteGen, decompile", "/repo/grf/grf.py: BaseNewGRF.generate_python, BaseNewGRF.add", "/repo/grf/sprites.py: ImageFile, FileSprite, WithMask"]}
{"id": "C77", "title": "A decompiled grf has every sprite and sound at its place", "statement": "The Python program the decompiler prints for a grf runs and, for each place at which the grf announces a real sprite, in order, adds that sprite: its pictures, or its sound, or nothing if the grf has none of this number. Every sound is written to a file of its own that no other sound or image overwrites, and that holds exactly the bytes of the sound.", "quantifier": "all grfs of container version 2: all sequences of pseudo-sprites, all real sprites and sounds, all names of sounds", "why_tests_cant": "Names of sounds are arbitrary text of the file, numbers may repeat or be missing, and places, numbers and the order of the real sprites are independent of each other.", "anchors": ["/repo/grf/decompile.py: read_real_sprite, save_sound_resources, gen_resource_name, read, decompile", "/repo/grf/grf.py: BaseNewGRF.generate_python", "/repo/grf/sprites.py: RAWSound"]}
{"id": "C78", "title": "A row of a sprite table is the sprite set of its number", "statement": "In the file a vehicle sprite table writes, the number add_row returned for a row is a set of the Action 1, and the eight sprites of that set are the row's sprites in order; a row of another length is refused and leaves the table as it was; the purchase row shows its sprite in the purchase list, and its layout refers to the set. A plain sprite table works the same with rows of its width.", "quantifier": "all sequences of add_row calls with rows of any length, all vehicle features, any number of rows", "why_tests_cant": "The numbers depend on the whole history of accepted and refused rows, and the record changes its format at 256 rows.", "anchors": ["/repo/grf/lib/vehicle.py: SpriteTable, VehicleSpriteTable", "/repo/grf/actions.py: Action1, GenericSpriteLayout"]}
{"id": "C79", "title": "The image of a sprite sheet shows every sprite where the sprite says it is", "statement": "After make_image every sprite of the sheet has a place in the image where the image shows exactly this sprite; the places of different sprites are at least the padding apart and away from every edge, lie in lines of the given number of columns, and everything else is background.", "quantifier": "all lists of sprites of any sizes (also repeated ones), all paddings from 0, all numbers of columns from 1", "why_tests_cant": "The size of the image and the offsets of the lines depend on maxima over all sprites; an overlap shows only for some sizes.", "anchors": ["/repo/grf/grf.py: SpriteSheet"]}
{"id": "C80", "title": "Global train settings and engine overrides do what they say and nothing else", "statement": "Any list of SetGlobalTrainMiscFlag statements, run in order, sets exactly the named bits of parameter 9E and keeps the others and all other parameters; SetGlobalTrainDepotYOffset sets parameter 8E to the offset; EngineOverride writes a record that replaces the engines of the target by those of the source, the NewGRF itself if no source is given.", "quantifier": "all lists of flags, all offsets, all labels given as bytes or numbers, all values the parameters had before", "why_tests_cant": "The effect is the state of the parameters after all records, for every state before.", "anchors": ["/repo/grf/lib/train.py: SetGlobalTrainDepotYOffset, GlobalTrainMiscFlag, SetGlobalTrainMiscFlag", "/repo/grf/lib/vehicle.py: EngineOverride", "/repo/grf/actions.py: ComputeParameters, Define"]}
{"id": "C81", "title": "Equal actions write the same record", "statement": "== on Define, DefineMultiple, Switch, Action3, DefineStrings, SetDescription and SetProperties is reflexive, symmetric and transitive, and two equal actions whose references have ids write the same record, or, where an attribute is a dictionary, records that differ in the order of its entries only.", "quantifier": "all pairs and triples of actions of these classes, with all references, dictionaries in all orders, property trees of any depth", "why_tests_cant": "A comparison that forgets an attribute only shows for a pair of actions that differ there; transitivity ranges over triples.", "anchors": ["/repo/grf/actions.py: Ref.__eq__, Range.__eq__, ref_eq, ref_dict_eq, DefineMultiple.__eq__, Switch.__eq__, Action3.__eq__, DefineStrings.__eq__, SetDescription.__eq__, SetProperties.__eq__"]}
{"id": "C82", "title": "A visual effect is read by the game as it was asked for", "statement": "The number Train.visual_effect_and_powered(effect, position=, wagon_power=) returns is read by the game as this effect at this position, with powered wagons exactly if asked.", "quantifier": "all effects of TrainVisualEffect, all positions 0 to 15, both values of wagon_power", "why_tests_cant": "A wrong bit mask is right for some combinations.", "anchors": ["/repo/grf/lib/train.py: Train.visual_effect_and_powered", "/repo/grf/actions.py: TrainVisualEffect"]}
{"id": "C83", "title": "The palette picture shows every colour in its square", "statement": "make_palette_image(palette, size) is a picture of 16 by 16 squares of size pixels; the square in column a and row b has colour 16b+a of the palette, and is black if there is no such colour.", "quantifier": "all palettes of any length, all sizes from 1, all pixels", "why_tests_cant": "It is about every pixel, for palettes of any length (also longer than 256).", "anchors": ["/repo/grf/colour.py: make_palette_image"]}
{"id": "C84", "title": "Translations are written and read back", "statement": "A Translations action writes grfid, language, number of strings, first id and the strings each ended by a zero, and the decompiler reads the same fields back.", "quantifier": "all grfids, languages, offsets, lists of strings without zero bytes", "why_tests_cant": "No test constructs the action; the statement ranges over all lists of strings.", "anchors": ["/repo/grf/actions.py: Translations", "/repo/grf/decompile.py: decode_action13"]}
{"id": "C85", "title": "A file is prepared before the build reads it", "statement": "During write(), before get_image() of an image file is called for a sprite, prepare() of that file has been called with the same keyword arguments; for sprites taken from the sprite cache neither is called.", "quantifier": "all lists of sprites (files, images, masked, moved and quantised ones), in any order of encoding, all states of the sprite cache, clean builds or not", "why_tests_cant": "It is about the order of calls for every nesting of sprites and every content of the cache.", "anchors": ["/repo/grf/grf.py: BaseNewGRF._do_write", "/repo/grf/sprites.py: Resource.prepare_files, FileSprite.prepare_files, SpriteWrapper.prepare_files, ImageFile.prepare", "/repo/grf/cache.py: SpriteCache"]}
{"id": "C86", "title": "The numbers of the build report agree with the file", "statement": "The last line of the report of write(): the total is the number of sprites and sounds of all resource actions, each action counted once however often it is added; total minus optimized duplicates is the number of sprite records in the written file; cached, uncacheable and newly encoded sprites add up to the total.", "quantifier": "all lists of actions, all data of their resources, whichever of them are in the cache", "why_tests_cant": "It is a sum over lists of actions of any length with any pattern of equal data.", "anchors": ["/repo/grf/grf.py: WriteContext.print_report, WriteContext.reset, BaseNewGRF._do_write, BaseNewGRF.write"]}
{"id": "C87", "title": "Recolourings use the nearest safe colour", "statement": "oklab_find_best_colour(x, r) is the first of the colours of r whose squared distance from x is smallest, for one colour as for each of an array; a colour of the palette is found exactly; it fails only for an empty range. PaletteRemap.oklab_from_function(f, r) is a table of 256 entries: an index outside r stays what it is, an index of r becomes the safe colour nearest to f of its colour, so with the default range the background and the animated colours stay.", "quantifier": "all colours and arrays of colours, all palettes of 256 colours, all functions of colours, all ranges of indices in the palette", "why_tests_cant": "The nearest colour is a minimum over a range of any length, for every colour and every function.", "anchors": ["/repo/grf/colour.py: oklab_find_best_colour", "/repo/grf/sprites.py: PaletteRemap.oklab_from_function"]}
{"id": "C88", "title": "Hexadecimal dumps say exactly what the data is", "statement": "hex_str(s) is the numerals of the bytes (or code points) of s in order, lower case, at least two digits each, with colons between; str_hex(hex_str(b)) == b for bytes b that are not empty; two different values never have the same dump; with a limit n >= 3, longer data is cut to n - 3 bytes and three dots; a dump has no character that could leave the line of the comment it is printed in.", "quantifier": "all bytes and strings of any length, all limits", "why_tests_cant": "Round trip and injectivity must hold for all data.", "anchors": ["/repo/grf/common.py: hex_str, str_hex, DataReader.hex_str"]}
{"id": "C89", "title": "Sizes in the build report are right", "statement": "byte_size_format(n), the size of the file in the build report, is a number with two digits after the point and a unit; it means n to the nearest hundredth of the unit, the unit being the largest of B, KiB, MiB and GiB that is not larger than n; the text can be read in one way only, sizes below 1024 are exact, and a larger size never reads as a smaller one.", "quantifier": "all sizes from 0 up to 2^53 bytes", "why_tests_cant": "Rounding and the choice of the unit must be right for every size, at every boundary.", "anchors": ["/repo/grf/common.py: byte_size_format", "/repo/grf/grf.py: BaseNewGRF.write"]}
{"id": "C90", "title": "Features are found as they were registered", "statement": "The game's features are Feature(0) to Feature(20), the first four are the vehicles, and repr of each is the module constant that gives it back. After any calls of dev.add_feature, Feature(id) and Feature.from_name(name) give the feature last added with that id and that name, all others stay, no two ids share their tables, and the tables of the new feature are its properties by id and by name, its variables over the global ones, and for the bits of every variable the name of a variable that reads exactly them. Feature.from_constant(constant) gives the feature of a constant.", "quantifier": "all sequences of add_feature calls with all ids, names, properties and variables", "why_tests_cant": "The registry is the result of any history of calls that replace and shadow each other.", "anchors": ["/repo/grf/common.py: Feature, FeatureMeta", "/repo/grf/dev.py: add_feature"]}
