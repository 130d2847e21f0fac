{
 "claims": [
  {
   "property": "C01",
   "status": "proved",
   "theorems": [
    "C01_extended_byte_roundtrip",
    "C01_extended_byte_domain"
   ],
   "note": ""
  },
  {
   "property": "C02",
   "status": "proved",
   "theorems": [
    "C02_epoch",
    "C02_successor",
    "C02_order"
   ],
   "note": ""
  },
  {
   "property": "C03",
   "status": "proved",
   "theorems": [
    "C03_datetime_roundtrip",
    "C03_day_count_roundtrip"
   ],
   "note": ""
  },
  {
   "property": "C04",
   "status": "proved",
   "theorems": [
    "C04_spriteref_roundtrip",
    "C04_word_roundtrip",
    "C04_conventions",
    "C04_bit_layout"
   ],
   "note": ""
  },
  {
   "property": "C05",
   "status": "partial",
   "theorems": [
    "C05_written",
    "C05_read_back",
    "C05_accepted",
    "C05_stable",
    "C05_prefix_free",
    "C05_register_order_refuted",
    "C05_ground_register_refuted",
    "C05_children_refuted",
    "C05_height_refuted",
    "C05_special_check_refuted",
    "C05_key_0_refuted",
    "C05_nul_refuted",
    "C05_size_refuted",
    "C05_no_encoder_refuted",
    "C05_no_reader_refuted"
   ],
   "note": "codes f v w b specifies the bytes of every format that has both an encoder and a decoder. Proved for all of them: the encoder writes exactly these bytes, the decoder reads back the value, the read value is stable, different values have different bytes. C05_accepted: everything the encoder accepts is covered, for formats where its checks suffice. Partial because the full claim is false of the code: the _refuted theorems show accepted values that are not read back (register order, ground registers, child sprites, height 128, first check at x=-2, key 0, NUL, width over 15) and formats without encoder or decoder. Property.validate is never called by the library, so the property is stated for values the encoder accepts."
  },
  {
   "property": "C06",
   "status": "partial",
   "theorems": [
    "C06_written_and_read_back",
    "C06_accepted",
    "C06_unknown_property",
    "C06_unknown_feature",
    "C06_stable",
    "C06_shadowed_property_refuted",
    "C06_count_limit"
   ],
   "note": "Byte-level specification of the whole record (define_codes) over the property tables, transcribed mechanically from the source; written, read back, stable, and everything accepted is covered when its values are (C06_accepted); unknown properties and features refused. Partial: false for the shadowed industry property 0x12 (C06_shadowed_property_refuted) and for the formats of C05's refuted theorems."
  },
  {
   "property": "C07",
   "status": "proved",
   "theorems": [
    "C07_layout",
    "C07_action1_roundtrip",
    "C07_action1_encodable",
    "C07_ambiguous_refuted"
   ],
   "note": "None is returned for the one excluded header. More than 255 sets without a first set is read back with first set 0, which denotes the same sets."
  },
  {
   "property": "C08",
   "status": "proved",
   "theorems": [
    "C08_generic_roundtrip",
    "C08_generic_encodable",
    "C08_collision_refuted",
    "C08_layout"
   ],
   "note": "Round trip, encodability, and the exact excluded lengths refuted for all records (C08_collision_refuted)."
  },
  {
   "property": "C09",
   "status": "partial",
   "theorems": [
    "C09_advanced_roundtrip_partial",
    "C09_advanced_encodable",
    "C09_advanced_recompile",
    "C09_basic_decode_partial",
    "C09_basic_recompile_refuted",
    "C09_negative_offset_refuted",
    "C09_height_refuted",
    "C09_palette_register_refuted",
    "C09_features_refuted",
    "C09_layout_partial",
    "C09_flag_word"
   ],
   "note": "Advanced layouts round-trip and recompile for the registers the writer emits and non-negative offsets; the excluded cases (negative offsets, height 128, palette/delta registers, features 0A/14, basic layouts after decoding) are proved not to hold."
  },
  {
   "property": "C10",
   "status": "proved",
   "theorems": [
    "C10_branch",
    "C10_inverted_refuted"
   ],
   "note": "Every branch of Switch range canonicalisation and merging is modelled; see C10 theorems."
  },
  {
   "property": "C11",
   "status": "partial",
   "theorems": [
    "C11_text_partial",
    "C11_decode_partial",
    "C11_roundtrip_partial",
    "C11_real_names",
    "C11_negative_range_refuted",
    "C11_indirect_refuted",
    "C11_tile_height_refuted"
   ],
   "note": "Decoding clean records is faithful and re-encodes to the same bytes; round trip of encoded switches keeps meaning. Fails for negative ranges, 7B with another operator, 60+x names (refuted theorems). Through the printed text: C11_text_partial."
  },
  {
   "property": "C12",
   "status": "partial",
   "theorems": [
    "C12_random_roundtrip_partial",
    "C12_random_encodable",
    "C12_relative_refuted",
    "C12_relative_vehicle_refuted",
    "C12_layout_partial"
   ],
   "note": "Self and parent scopes proved; relative scope is refuted (count byte condition inverted)."
  },
  {
   "property": "C13",
   "status": "partial",
   "theorems": [
    "C13_layout_partial",
    "C13_action3_roundtrip_partial",
    "C13_action3_encodable",
    "C13_wagon_override_refuted",
    "C13_many_ids_refuted",
    "C13_no_ids_refuted"
   ],
   "note": "ids, maps and default round-trip for 1..127 ids with distinct cargo/type keys. The wagon-override flag is lost by the encoder and the decoder, 128+ ids are misread and an empty id list with a Ref default cannot be written (refuted theorems)."
  },
  {
   "property": "C14",
   "status": "proved",
   "theorems": [
    "C14_layout",
    "C14_action4_roundtrip",
    "C14_action4_encodable",
    "C14_empty_refuted"
   ],
   "note": "For a non-empty string list (an empty one is refuted); texts as their encoded bytes."
  },
  {
   "property": "C15",
   "status": "proved",
   "theorems": [
    "C15_layout",
    "C15_actionA_limit",
    "C15_action5_roundtrip",
    "C15_action5_encodable",
    "C15_actionA_roundtrip",
    "C15_actionA_encodable"
   ],
   "note": ""
  },
  {
   "property": "C16",
   "status": "proved",
   "theorems": [
    "C16_layout",
    "C16_action6_roundtrip",
    "C16_action6_encodable",
    "C16_parameter_255_refuted"
   ],
   "note": "Parameter number 255 is the terminator and excluded (refuted for it)."
  },
  {
   "property": "C17",
   "status": "proved",
   "theorems": [
    "C17_layout",
    "C17_action7_roundtrip",
    "C17_value_kept",
    "C17_action7_encodable",
    "C17_bit_test_size_refuted"
   ],
   "note": "Integers are read back modulo the field size (equal when they fit); bit tests need size 1 (refuted otherwise)."
  },
  {
   "property": "C18",
   "status": "proved",
   "theorems": [
    "C18_layout",
    "C18_actionD_roundtrip",
    "C18_actionD_encodable"
   ],
   "note": ""
  },
  {
   "property": "C19",
   "status": "proved",
   "theorems": [
    "C19_action14_roundtrip"
   ],
   "note": "Trees whose tags are four bytes (or 32-bit numbers), without repeated tags or empty leaf lists."
  },
  {
   "property": "C20",
   "status": "partial",
   "theorems": [
    "C20_layout",
    "C20_action8_roundtrip",
    "C20_action10_roundtrip",
    "C20_action11_roundtrip",
    "C20_actionFE_roundtrip",
    "C20_small_encodable",
    "C20_comment_refuted"
   ],
   "note": "Actions 8, 10, 11, FE proved; Comment (Action C) is refuted: it is written as 12 zero bytes."
  },
  {
   "property": "C21",
   "status": "partial",
   "theorems": [
    "C21_switch_computes_code_partial",
    "C21_compiles",
    "C21_tables",
    "C21_computed_operand_refuted",
    "C21_shadow_refuted",
    "C21_param_name_refuted",
    "C21_param_ignored_refuted",
    "C21_procedure_clobbers_refuted",
    "C21_int_subroutine_refuted"
   ],
   "note": "Holds for all supported expressions, with success guaranteed by C21_compiles; the excluded shapes are refuted: computed/large parameter as right operand, assignment to a game variable name, 60+x names without parameter, procedures using register 80."
  },
  {
   "property": "C22",
   "status": "proved",
   "theorems": [
    "C22_fresh",
    "C22_fails_only_when_full",
    "C22_never_shared",
    "C22_names",
    "C22_release"
   ],
   "note": "Any history of allocator requests."
  },
  {
   "property": "C23",
   "status": "proved",
   "theorems": [
    "C23_simplify_meaning",
    "C23_comparison_meaning",
    "C23_simplify_recognises",
    "C23_reparse_undoes"
   ],
   "note": "All expressions, all operand values, any game."
  },
  {
   "property": "C24",
   "status": "proved",
   "theorems": [
    "C24_refs_before_use",
    "C24_listed_later_refuted",
    "C24_shared_refuted",
    "C24_id_collision_refuted",
    "C24_auto_id_free",
    "C24_explicit_id_refuted"
   ],
   "note": "Order, id binding and feature proved for every acyclic graph with inline references; outside that class the claim is refuted (listed later, shared, id collision)."
  },
  {
   "property": "C25",
   "status": "proved",
   "theorems": [
    "C25_listed_kept",
    "C25_resolves",
    "C25_numbered_ref_refuted",
    "C25_cycle_refuted"
   ],
   "note": "Exactly the needed actions, listed order kept, no duplicates, and resolution succeeds (<=255 referenceable actions, consistent features). Outside the inline class refuted: numbered references and cycles drop listed actions."
  },
  {
   "property": "C26",
   "status": "proved",
   "theorems": [
    "C26_distinct",
    "C26_ids",
    "C26_order",
    "C26_listed_twice_refuted"
   ],
   "note": "Ids 1..n in schedule order for lists without repetitions; distinct positive ids in general (C26_distinct). C26_listed_twice_refuted: the strict 1..n form fails when an action is listed twice."
  },
  {
   "property": "C27",
   "status": "proved",
   "theorems": [
    "C27_carried_out",
    "C27_listed_twice_refuted",
    "C27_schedule"
   ],
   "note": "Schedule, and its execution by the writer (C27_carried_out), for lists without repeated resource actions. C27_listed_twice_refuted: a repeated resource action breaks it (finding)."
  },
  {
   "property": "C28",
   "status": "proved",
   "theorems": [
    "C28_container",
    "C28_written"
   ],
   "note": "do_write of the model (enumeration, pseudo sprites, resources, patching) against a reader of the container framing. Hypotheses: equal hashes only for equal data, no action with empty data (a zero length ends the section)."
  },
  {
   "property": "C29",
   "status": "proved",
   "theorems": [
    "C29_dedupe",
    "C29_collision_refuted"
   ],
   "note": "Under the hypothesis that equal hashes mean equal data; C29_collision_refuted shows the code relies on it."
  },
  {
   "property": "C30",
   "status": "partial",
   "theorems": [
    "C30_distinct",
    "C30_explicit_partial",
    "C30_loaded_refuted",
    "C30_first",
    "C30_reserved"
   ],
   "note": "Names: full. Explicit ids: full for ids given in the session; C30_loaded_refuted: ids read from id_map.json are not protected (the loader stores names instead of numbers). BaseNewGRF.reserve_ids cannot be called (wrong arity); IDMap.reserve_ids is modelled."
  },
  {
   "property": "C31",
   "status": "proved",
   "theorems": [
    "C31_stable",
    "C31_across"
   ],
   "note": "Any number of sessions, with or without saving. JSON encoding itself is not modelled."
  },
  {
   "property": "C32",
   "status": "proved",
   "theorems": [
    "C32_get",
    "C32_transparent",
    "C32_after_save",
    "C32_hit"
   ],
   "note": ""
  },
  {
   "property": "C33",
   "status": "partial",
   "theorems": [
    "C33_crash_partial",
    "C33_clean_build_refuted",
    "C33_two_deaths_refuted"
   ],
   "note": "Holds unless a process dies while storing a key that index.json lists; C33_clean_build_refuted and C33_two_deaths_refuted show that this happens and then half a sprite is served."
  },
  {
   "property": "C34",
   "status": "proved",
   "theorems": [
    "C34_ids",
    "C34_section",
    "C34_refused",
    "C34_same_file_refuted"
   ],
   "note": "sameness of sounds is the model's fingerprint (a parameter): equal fingerprints share an id, different ones do not; RAWSound(path) twice gives two fingerprints, hence two ids (C34_same_file_refuted)."
  },
  {
   "property": "C35",
   "status": "partial",
   "theorems": [
    "C35_texts",
    "C35_ids",
    "C35_defined_partial",
    "C35_overflow_refuted",
    "C35_collision_refuted",
    "C35_auto_name_refuted"
   ],
   "note": "full within 3072 global and 9216 persistent strings, no hash collision and no user name of the form GRFPY_n; each restriction is shown necessary by a _refuted theorem. Rendering of a text to bytes per language is nml code, a parameter of the model."
  },
  {
   "property": "C36",
   "status": "proved",
   "theorems": [
    "C36_combine_ranges",
    "C36_base_costs",
    "C36_disable_default",
    "C36_iterator_refuted"
   ],
   "note": "combine_ranges for every list and limit; BaseCosts and DisableDefault set exactly the given ids in records that can be written. Refuted: a generator as ids disables nothing."
  },
  {
   "property": "C37",
   "status": "proved",
   "theorems": [
    "C37_order",
    "C37_variant_groups",
    "C37_group_names",
    "C37_records",
    "C37_refused"
   ],
   "note": "The order, the variant groups and the names of the groups, for different vehicles (and different ids)."
  },
  {
   "property": "C38",
   "status": "partial",
   "theorems": [
    "C38_head",
    "C38_too_long",
    "C38_length_and_shorten_by",
    "C38_part_partial",
    "C38_part_parity_refuted",
    "C38_part_no_head_length_refuted",
    "C38_zero_length_refuted"
   ],
   "note": "Heads of every length from 1 to 24 and refusal above: proved. Added parts: only when not longer than 8 or of the parity of the head (C38_part_partial); otherwise a unit is lost (refuted). Length 0 is accepted (refuted)."
  },
  {
   "property": "C39",
   "status": "proved",
   "theorems": [
    "C39_first_available",
    "C39_ids",
    "C39_same_first_label_refuted",
    "C39_label_captures_refuted"
   ],
   "note": "Byte-level interpreter of the game in SpecRail.v. Refuted outside the quantifier: the same first label twice; a label later in the file that catches the skip."
  },
  {
   "property": "C40",
   "status": "proved",
   "theorems": [
    "C40_identity",
    "C40_in_range",
    "C40_exact",
    "C40_overbright"
   ],
   "note": "All colours and brightness values, with the exact result."
  },
  {
   "property": "C41",
   "status": "partial",
   "theorems": [
    "C41_decompress_partial",
    "C41_sprite_partial",
    "C41_sound_partial",
    "C41_overlapping_copy_refuted"
   ],
   "note": "Proved for every stream of literal blocks and copies that do not overlap themselves (and for whole sprite / sound records). The unrestricted statement is false of the code: self-overlapping copies raise (C41_overlapping_copy_refuted)."
  },
  {
   "property": "C42",
   "status": "proved",
   "theorems": [
    "C42_chunked"
   ],
   "note": "Every image and every chunking."
  },
  {
   "property": "C43",
   "status": "proved",
   "theorems": [
    "C43_unique",
    "C43_fresh",
    "C43_safe",
    "C43_trimmed",
    "C43_total_partial",
    "C43_limit_refuted"
   ],
   "note": "Uniqueness, freshness and safety for every history of requests; totality holds below 100 equal names, and beyond it the code raises (C43_limit_refuted)."
  },
  {
   "property": "C44",
   "status": "partial",
   "theorems": [
    "C44_success",
    "C44_target",
    "C44_no_temp_partial",
    "C44_interrupt_refuted",
    "C44_copy_refuted"
   ],
   "note": "target untouched for every fault (exception, interrupt, death) before the move; temporary file removed for every Exception. Interrupts and death leave it (C44_interrupt_refuted); a cross-device move can truncate the target (C44_copy_refuted)."
  },
  {
   "property": "C45",
   "status": "partial",
   "theorems": [
    "C45_nothing_moves",
    "C45_visible_kept_partial",
    "C45_rgb_kept_partial",
    "C45_opaque_black_refuted",
    "C45_tight"
   ],
   "note": "Proved for every picture with alpha or palette-only, and for non-black pixels of 24bpp pictures; opaque black borders of 24bpp pictures are cut off (C45_opaque_black_refuted), so the unrestricted statement is false of the code. Crop box shown tight."
  },
  {
   "property": "C46",
   "status": "proved",
   "theorems": [
    "C46_round_trip",
    "C46_store_is_compressor",
    "C46_shown_partial",
    "C46_empty"
   ],
   "note": "Every layer combination, size, offset and zoom; given a compressor whose output decompresses (specified separately, met by storing literals). C46_shown_partial composes it with cropping for sprites with alpha or palette-only."
  },
  {
   "property": "C47",
   "status": "partial",
   "theorems": [
    "C47_normal",
    "C47_property_partial",
    "C47_purchase",
    "C47_total",
    "C47_no_graphics",
    "C47_flags_partial",
    "C47_property_ids_partial",
    "C47_callback_ids",
    "C47_constructor",
    "C47_flags_refuted",
    "C47_house_flags_refuted",
    "C47_property_ids_refuted",
    "C47_property_refuted",
    "C47_gui_refuted",
    "C47_no_variables_refuted"
   ],
   "note": "Proved for every sequence of assignments (constructor, attribute, .default/.purchase, properties): in the normal context every set callback is reached and every other number leads to the graphics; in the purchase list likewise (a property switch there falls back to the normal graphics); make_switch refuses exactly missing graphics or property + change_properties; flag bits are exactly those documented except four wrong table entries (refuted); property switches under the hypothesis that a Dual property's two callbacks do not share a number (refuted otherwise: two unnumbered switches are merged). Refuted parts: house flags have no such property, aircraft property numbers, 'gui' of rail/road/tramtypes, features without variable table."
  },
  {
   "property": "C48",
   "status": "partial",
   "theorems": [
    "C48_text_partial",
    "C48_lines_partial",
    "C48_same_partial",
    "C48_simplified_partial",
    "C48_meaning_partial",
    "C48_injective_partial",
    "C48_tables_calm",
    "C48_bitwise_refuted",
    "C48_shift_refuted",
    "C48_division_refuted",
    "C48_comparison_refuted",
    "C48_unread_refuted",
    "C48_unprintable_refuted",
    "C48_adjust_refuted"
   ],
   "note": "Proved: the printed text of every expression with a notation whose bitwise operators nest as the printer brackets them is read back (exactly when settled/plain; same meaning when only sums/products get regrouped), any number of lines, through lexer and shift/reduce parser. Missing: expressions excluded by printable/grouped/harmless, each class of which is refuted by a C48_*_refuted theorem (the code prints text with another meaning, or text it cannot read, or raises). PLY's LALR automaton is modelled as shift/reduce by precedence; ASCII only."
  },
  {
   "property": "C49",
   "status": "proved",
   "theorems": [
    "C49_recompile"
   ],
   "note": ""
  },
  {
   "property": "C50",
   "status": "partial",
   "theorems": [
    "C50_layout_partial",
    "C50_builtin_refuted",
    "C50_actionB_refuted",
    "C50_actionB_text_refuted"
   ],
   "note": "Refuted: the decoder inverts the test for custom messages. The writer also appends a stray zero byte to built-in messages (C50_builtin_refuted); the byte layout it does emit is C50_layout_partial."
  },
  {
   "property": "C51",
   "status": "partial",
   "theorems": [
    "C51_layout",
    "C51_action12_refuted",
    "C51_action12_build_refuted"
   ],
   "note": "Refuted: the constructor drops the glyphs."
  },
  {
   "property": "C52",
   "status": "partial",
   "theorems": [
    "C52_production_decode",
    "C52_production_encode_refuted"
   ],
   "note": "Decoder proved against the format; encoder refuted: it never writes an Action 2 production record."
  },
  {
   "property": "C53",
   "status": "partial",
   "theorems": [
    "C53_generated_partial",
    "C53_wrapped_refuted"
   ],
   "note": "for everything except an explicit SingleResourceAction passed to add(), which the code drops silently (C53_wrapped_refuted), and with at most 183 distinct sounds."
  },
  {
   "property": "C54",
   "status": "partial",
   "theorems": [
    "C54_watched_partial",
    "C54_watched_refuted"
   ],
   "note": "true only for files without resources; refuted for every file with a resource action: the returned set is empty (C54_watched_refuted)."
  },
  {
   "property": "C55",
   "status": "proved",
   "theorems": [
    "C55_compile"
   ],
   "note": "nml's is_ascii_string is a parameter of the model."
  },
  {
   "property": "C56",
   "status": "proved",
   "theorems": [
    "C56_sheet"
   ],
   "note": ""
  },
  {
   "property": "C57",
   "status": "partial",
   "theorems": [
    "C57_sound_partial",
    "C57_sound_size_refuted",
    "C57_written"
   ],
   "note": "Name, data position and end of record proved; the recorded size is always one too many (C57_sound_size_refuted)."
  },
  {
   "property": "C58",
   "status": "partial",
   "theorems": [
    "C58_restore_partial",
    "C58_mirrored_refuted"
   ],
   "note": "Proved for ordinary boxes of the base image; false for mirrored views (C58_mirrored_refuted)."
  },
  {
   "property": "C59",
   "status": "proved",
   "theorems": [
    "C59_same_key",
    "C59_builds",
    "C59_uncacheable",
    "C59_touched",
    "C59_files_listed",
    "C59_assigned_refuted"
   ],
   "note": "Over trees as the constructors make them. Hypotheses in the statement: md5 does not collide on the fingerprints involved, and a file rewritten gets another modification time. PIL and numpy are the operations of the record pil. C59_assigned_refuted: attributes assigned after construction of a WithMask are not seen by the key (outside the claim)."
  },
  {
   "property": "C60",
   "status": "partial",
   "theorems": [
    "C60_mask",
    "C60_mask_total",
    "C60_mask_refused",
    "C60_file",
    "C60_converted",
    "C60_file_inside",
    "C60_file_whole",
    "C60_width_refuted",
    "C60_key_8bpp_refuted",
    "C60_move",
    "C60_move_twice",
    "C60_quantize",
    "C60_mask_depth",
    "C60_place",
    "C60_crop"
   ],
   "note": "C60_mask, _mask_total, _mask_refused, _file, _file_inside, _file_whole, _move, _move_twice, _quantize, _mask_depth, _place, _crop hold for all images. Refuted parts: a width given without a height is ignored (C60_width_refuted), a key colour on a palette image with no depth given raises (C60_key_8bpp_refuted)."
  },
  {
   "property": "C61",
   "status": "partial",
   "theorems": [
    "C61_exact",
    "C61_near",
    "C61_stable",
    "C61_total",
    "C61_background_refuted",
    "C61_quantize",
    "C61_remap",
    "C61_round_trip",
    "C61_decompiled_refuted"
   ],
   "note": "Proved: C61_exact, _near, _stable, _total, _quantize, _remap, _round_trip. Refuted: index 0 is converted like a colour (C61_background_refuted); the decompiler passes the leading zero into the remap, so a decompiled recolour sprite is written one byte too long (C61_decompiled_refuted)."
  },
  {
   "property": "C62",
   "status": "partial",
   "theorems": [
    "C62_total",
    "C62_pieces",
    "C62_only",
    "C62_tiles",
    "C62_height",
    "C62_layout",
    "C62_drawn",
    "C62_accepted",
    "C62_overlap_refused",
    "C62_size_refuted"
   ],
   "note": "All of it for square buildings; pieces (C62_pieces, _only, _tiles, _height) for all sizes. C62_size_refuted: a building that is not square claims size[0] x size[0] tiles. The zoom of the building's sprite is not passed on to the pieces (not modelled)."
  },
  {
   "property": "C63",
   "status": "partial",
   "theorems": [
    "C63_header",
    "C63_twice",
    "C63_refused",
    "C63_too_many",
    "C63_cargo",
    "C63_duplicate_refuted",
    "C63_tags"
   ],
   "note": "C63_tags: the keys are the words of the format. C63_duplicate_refuted: a label listed twice in set_cargo_table shifts the ids of the labels after it against the table written. Otherwise complete (labels of four bytes, all different)."
  },
  {
   "property": "C64",
   "status": "partial",
   "theorems": [
    "C64_livery",
    "C64_purchase",
    "C64_no_purchase",
    "C64_names",
    "C64_text",
    "C64_keeps",
    "C64_road_speed",
    "C64_road_kmhish",
    "C64_props",
    "C64_road_length",
    "C64_ship_speed",
    "C64_train_livery",
    "C64_train_part",
    "C64_train_purchase",
    "C64_train_names",
    "C64_train_text",
    "C64_train_articulated",
    "C64_train_sounds",
    "C64_train_weight",
    "C64_short",
    "C64_long",
    "C64_shape",
    "C64_add_part",
    "C64_train_props",
    "C64_builds",
    "C64_train_builds",
    "C64_long_without_liveries_refuted",
    "C64_part_weight_refuted",
    "C64_change_properties_refuted",
    "C64_road_speed_1023_refuted",
    "C64_ship_kmh_partial",
    "C64_ship_kmh_refuted",
    "C64_object_size",
    "C64_object_size_refuted",
    "C64_part_liveries_refuted",
    "C64_dual_headed",
    "C64_part_checks"
   ],
   "note": "Found: a train longer than 8 without liveries never builds (C64_long_without_liveries_refuted); liveries of parts are not checked (C64_part_liveries_refuted); a part given a weight gets that of the train (C64_part_weight_refuted); a road vehicle with a speed of 1024 half km/h-ish or more drops the change_properties of the program (C64_change_properties_refuted); 1022 and 1023 are rounded worse than needed (C64_road_speed_1023_refuted); Ship.kmh of 128 and more does not fit its property and kmhish divides where kmh multiplies (C64_ship_kmh_refuted); object sizes are not checked (C64_object_size_refuted). Not modelled: aircraft do not exist in the library; non-integer properties."
  },
  {
   "property": "C65",
   "status": "partial",
   "theorems": [
    "C65_reads",
    "C65_house",
    "C65_opaque",
    "C65_no_holes",
    "C65_only_neighbours",
    "C65_hidden",
    "C65_order",
    "C65_refuses",
    "C65_side_view",
    "C65_side_order",
    "C65_deep_refuted",
    "C65_narrow_needed",
    "C65_black_refuted",
    "C65_mirror_refuted",
    "C65_side_order_refuted"
   ],
   "note": "Proved for files whose y coordinates are at most the x size (C65_narrow_needed: otherwise voxels are misplaced). Found: models deeper than wide are torn apart (C65_deep_refuted); voxels whose nearest colour is 1 are not drawn (C65_black_refuted); 4x pictures of symmetric models are not symmetric (C65_mirror_refuted); two of the four side views depend on the order of voxels (C65_side_order_refuted). Not modelled: PreciseView and PIL resampling, floating point depth (a parameter), oklab colours (parameters)."
  },
  {
   "property": "C66",
   "status": "partial",
   "theorems": [
    "C66_unambiguous",
    "C66_wire",
    "C66_end",
    "C66_too_long",
    "C66_all_arrives_refuted",
    "C66_nul_refuted",
    "C66_address",
    "C66_connection_string",
    "C66_password_refuted"
   ],
   "note": "Proved for messages that contain no NUL and no newline but at their end, and passwords without NUL and @. Found: text after the last newline and whatever is printed after the end marker (\"Reloading newgrfs.\") is never sent (C66_all_arrives_refuted); a NUL in the password cuts it (C66_nul_refuted); passwords with @ or : are misread (C66_password_refuted). Not modelled: the connection, asyncio."
  },
  {
   "property": "C67",
   "status": "partial",
   "theorems": [
    "C67_no_change_lost",
    "C67_reacts",
    "C67_failure",
    "C67_up_to_date",
    "C67_first_build_refuted",
    "C67_new_file_refuted"
   ],
   "note": "Proved for files watched before the build that uses them. Found: a change saved during the first build (C67_first_build_refuted), or to a file that a running build uses for the first time (C67_new_file_refuted), is not noticed, and the loop rests with an out-of-date grf. Simplified: paths are numbers, sleeping is left out, scheduling a directory is immediate, and a build counts as failed when the game cannot be reached (its thread may in fact go on and write the grf)."
  },
  {
   "property": "C68",
   "status": "partial",
   "theorems": [
    "C68_shows",
    "C68_total_partial",
    "C68_empty_mask_refuted"
   ],
   "note": "C68_shows holds for all sprites that have a preview. Found: a true-colour sprite with an empty mask raises instead (C68_empty_mask_refuted; numpy cannot broadcast an empty list to (0, 3)); C68_total_partial states exactly when there is a picture."
  },
  {
   "property": "C69",
   "status": "partial",
   "theorems": [
    "C69_shows_partial",
    "C69_total_partial",
    "C69_fizzy_refuted",
    "C69_radio_tower_refuted",
    "C69_still_refuted"
   ],
   "note": "Proved for all colours but the five fizzy-drink ones and sprites without radio tower colours. Found: fizzy-drink colours never move (their positions in has_colors are negative, C69_fizzy_refuted); radio tower colours raise (a pair is unpacked into three, C69_radio_tower_refuted); a sprite without animated colours raises (C69_still_refuted). Not modelled: the GIF encoding by PIL."
  },
  {
   "property": "C70",
   "status": "partial",
   "theorems": [
    "C70_rebuilt",
    "C70_runs",
    "C70_names",
    "C70_again",
    "C70_written",
    "C70_repeated_range_refuted",
    "C70_subroutines_refuted",
    "C70_inline_refuted",
    "C70_mixed_features_refuted",
    "C70_unprinted_refuted"
   ],
   "note": "C70_rebuilt, C70_runs, C70_names, C70_again and C70_written for all decompiled grfs without repeated ranges whose references stay within one feature. Found: a range listed twice in a switch is printed as one dict entry, the later value at the earlier place (C70_repeated_range_refuted); subroutines are not printed (C70_subroutines_refuted); actions given inline are not printed and the program stops with an exception (C70_inline_refuted); references across features make the rebuilt grf raise (C70_mixed_features_refuted). The other printed arguments are one opaque value, taken to read back as printed."
  },
  {
   "property": "C71",
   "status": "partial",
   "theorems": [
    "C71_printed_reads_back",
    "C71_text_tells_actions_apart",
    "C71_same_is_equal",
    "C71_names_bound",
    "C71_decompiled",
    "C71_repr_reads_back",
    "C71_pretty_value",
    "C71_pretty_printer",
    "C71_printer_exists",
    "C71_decompiled_again",
    "C71_feature_constants",
    "C71_strings_dropped_refuted",
    "C71_bytes_values_refuted",
    "C71_sprite_layouts_refuted"
   ],
   "note": "C71_printed_reads_back, C71_text_tells_actions_apart, C71_names_bound, C71_decompiled, C71_repr_reads_back for all printable actions; SpecPython is a reader of the part of Python that is printed. The pretty printer (actions.py PrettyPrinter and what it inherits from CPython 3.11 pprint) is modelled too and meets the assumption (C71_pretty_printer, C71_pretty_value: wrapped bytes, lists, tuples and dicts of any depth), so C71_decompiled_again has no assumption: ten kinds of records decoded, printed, read, built and written again are read as the same record. Found: If and ComputeParameters with bytes values raise when printed (C71_bytes_values_refuted); sprite layouts print SpriteRef, which the program neither imports nor binds (C71_sprite_layouts_refuted); the pretty printer drops every str value of a dict or list that does not fit on a line, because str has an attribute format (C71_strings_dropped_refuted). Not covered: property values of library classes with their own printing (industry layouts, sprite layout lists), UnicodeGlyphs (has no py), code of several lines containing quotes or backslashes, which are printed unescaped."
  },
  {
   "property": "C72",
   "status": "partial",
   "theorems": [
    "C72_tint",
    "C72_transparency",
    "C72_draws",
    "C72_off",
    "C72_no_sprites",
    "C72_debug_refuted",
    "C72_first_use_refuted"
   ],
   "note": "C72_tint, C72_transparency, C72_draws for every history of pictures; C72_off, C72_no_sprites. Found: with the option on, no grf containing a sprite can be written at all, since the sprite map has the wrappers as keys but is asked for the sprites (C72_debug_refuted: KeyError, always); and the first picture of palette indices drawn at a zoom level has elements of eight bytes (C72_first_use_refuted). The search for the nearest colour is a parameter (the entries 1 to 255 of a table); C39 has the search itself."
  },
  {
   "property": "C73",
   "status": "partial",
   "theorems": [
    "C73_accepted",
    "C73_refused",
    "C73_get",
    "C73_get_none",
    "C73_found",
    "C73_slots_partial",
    "C73_slots_refuted",
    "C73_depths_refuted",
    "C73_none_refuted"
   ],
   "note": "C73_accepted, C73_refused, C73_get, C73_get_none, C73_found; C73_slots_partial if every depth is given and is 8 or 32. Otherwise false: a sprite without a depth beside one with the depth of its picture, or depths 24 and 32, are accepted and clash (C73_slots_refuted); two sprites without depths whose pictures do not clash are refused (C73_depths_refuted); no sprites at all are accepted (C73_none_refuted)."
  },
  {
   "property": "C74",
   "status": "partial",
   "theorems": [
    "C74_graphics",
    "C74_sounds",
    "C74_stray",
    "C74_unannounced",
    "C74_reads",
    "C74_distinct",
    "C74_files",
    "C74_counted",
    "C74_sizes_refuted",
    "C74_nothing_refuted",
    "C74_recolour_refuted"
   ],
   "note": "C74_graphics, C74_sounds, C74_stray, C74_unannounced (any records before and after), C74_reads, C74_distinct, C74_files, C74_counted. Found: the sizes printed are four bytes too many for each record (C74_sizes_refuted); an action announcing no sprites takes the next stray one (C74_nothing_refuted); recolour sprites are not counted as sprites of their group, and are decoded as actions 0 (C74_recolour_refuted). Container version 2 only; an inline sound (FF) always makes its decoder raise."
  },
  {
   "property": "C75",
   "status": "partial",
   "theorems": [
    "C75_resolved",
    "C75_pixels",
    "C75_channels_partial",
    "C75_mixed_refuted",
    "C75_total",
    "C75_encodings_refuted"
   ],
   "note": "C75_resolved (sprites of alpha alone are left out), C75_pixels, C75_total (exact condition of success). C75_channels_partial: for groups whose sprites have the same kinds of channels. Found: in other groups a palette sprite is printed as a transparent picture with a mask and a sprite of colours gets a mask of index 255 (C75_mixed_refuted); a grf with two sprites of the same pixels and offsets that were compressed differently cannot be decompiled: AssertionError (C75_encodings_refuted)."
  },
  {
   "property": "C76",
   "status": "partial",
   "theorems": [
    "C76_read_once",
    "C76_runs",
    "C76_alternatives_refuted",
    "C76_empty_refuted"
   ],
   "note": "C76_runs (the text is a program, C76_read_once: in one way only, and it adds the pictures), for sprites with channels. Found: the sprites of one number, its zoom levels and colour depths, are added as separate sprites, so all later ones are shifted (C76_alternatives_refuted); for sprites without channels the program uses EMPTY_SPRITE, which it does not import (C76_empty_refuted)."
  },
  {
   "property": "C77",
   "status": "partial",
   "theorems": [
    "C77_runs",
    "C77_files",
    "C77_sounds_partial",
    "C77_sounds_refuted",
    "C77_graphics"
   ],
   "note": "C77_runs (program, order, contents of the files), C77_files (no file is written twice), C77_graphics (announced graphics are read as graphics); C77_sounds_partial: every announced sound's file holds the bytes of the sound and the byte after its record. Found: so no sound is extracted unchanged, and sounds grow each time a grf is decompiled and built again (C77_sounds_refuted). Sounds with a negative size (a record too short for its name) are left out."
  },
  {
   "property": "C78",
   "status": "partial",
   "theorems": [
    "C78_numbers",
    "C78_sets",
    "C78_written",
    "C78_features",
    "C78_layout",
    "C78_purchase",
    "C78_purchase_accepted",
    "C78_plain_refuted"
   ],
   "note": "Proved in full for VehicleSpriteTable: C78_numbers, C78_sets, C78_written (1 to 65535 rows), C78_features, C78_layout, C78_purchase, C78_purchase_accepted. Found: a plain SpriteTable takes rows but can never be written, its width is never set (C78_plain_refuted). Sprites are arbitrary values: what a sprite writes itself is C13 and following."
  },
  {
   "property": "C79",
   "status": "proved",
   "theorems": [
    "C79_reads_back",
    "C79_apart",
    "C79_rest",
    "C79_made",
    "C79_lines"
   ],
   "note": "C79_reads_back, C79_apart, C79_rest, C79_made, C79_lines. A sprite is taken to draw inside its own rectangle (its draw method is the user's: the base class raises). Pillow is modelled as a function from coordinates to colour indices. With a negative padding sprites overlap (C79_negative); the property is stated from 0."
  },
  {
   "property": "C80",
   "status": "partial",
   "theorems": [
    "C80_flags",
    "C80_flag_range",
    "C80_flag_names",
    "C80_depot",
    "C80_depot_negative_refuted",
    "C80_override",
    "C80_override_numbers"
   ],
   "note": "C80_flags, C80_flag_range (flags other than 0 to 31 raise), C80_flag_names, C80_depot, C80_override, C80_override_numbers. Found: a negative depot offset cannot be written although the offset is signed (C80_depot_negative_refuted). The engine is SpecSettings.sets."
  },
  {
   "property": "C81",
   "status": "partial",
   "theorems": [
    "C81_references",
    "C81_strings",
    "C81_description",
    "C81_map_equivalence",
    "C81_map_record",
    "C81_map_record_ordered",
    "C81_map_no_ids_refuted",
    "C81_map_unresolved_refuted",
    "C81_switch_equivalence",
    "C81_switch_record",
    "C81_switch_subroutines_refuted",
    "C81_define_equivalence",
    "C81_define_record",
    "C81_properties",
    "C81_properties_equivalence",
    "C81_properties_record"
   ],
   "note": "Equivalence: C81_map_equivalence, C81_switch_equivalence, C81_define_equivalence, C81_properties_equivalence (C81_references, C81_strings, C81_description: equality of all attributes). Records: C81_map_record, C81_map_record_ordered, C81_define_record (for values whose equality implies equal bytes: not dictionaries with several entries), C81_properties (equal iff the same tree with entries reordered), C81_properties_record, C81_switch_record. Found: Switch.__eq__ ignores the subroutines, so equal switches can write different records (C81_switch_subroutines_refuted); an Action3 without ids writes the default itself, so 5 and CB(5) are equal and only one can be written (C81_map_no_ids_refuted); references to different actions without ids are equal (C81_map_unresolved_refuted)."
  },
  {
   "property": "C82",
   "status": "partial",
   "theorems": [
    "C82_effect_partial",
    "C82_powered_refuted",
    "C82_wagons_refuted",
    "C82_never_as_asked_refuted"
   ],
   "note": "C82_effect_partial: with wagon_power=False effect and position are read as asked. Found: the property is false. With wagon_power=True, the default, the result is always 0x7f: the effect is off (C82_powered_refuted); wagon power can never be turned off, 0x7f should be 0x80 for not wagon_power (C82_wagons_refuted); no combination is read as asked (C82_never_as_asked_refuted). How the game reads the number is engine_reads in PropsVisual.v."
  },
  {
   "property": "C83",
   "status": "proved",
   "theorems": [
    "C83_squares",
    "C83_size"
   ],
   "note": "C83_squares, C83_size. The numpy array is a function from coordinates; slices beyond its edge are empty."
  },
  {
   "property": "C84",
   "status": "partial",
   "theorems": [
    "C84_layout",
    "C84_read",
    "C84_cannot_be_made_refuted",
    "C84_cannot_be_read_refuted"
   ],
   "note": "C84_layout: what get_data writes for an object with these attributes. C84_read: the fields the decompiler reads are the same, with an extra empty string at the end. Found: the constructor has no strings parameter and always raises (C84_cannot_be_made_refuted); the decompiler then names a class that does not exist, so no grf with an Action 13 can be decompiled (C84_cannot_be_read_refuted)."
  },
  {
   "property": "C85",
   "status": "partial",
   "theorems": [
    "C85_prepared_first_partial",
    "C85_cached_untouched",
    "C85_clean_build",
    "C85_mask_refuted",
    "C85_lost_cache_file_refuted"
   ],
   "note": "C85_prepared_first_partial: for sprites without WithMask and a cache none of whose files is missing. C85_cached_untouched, C85_clean_build. Found: the property is false otherwise. WithMask inherits the empty prepare_files, so its files are read without being prepared (C85_mask_refuted); a sprite listed in the index of the cache while its file is gone is not prepared and then read (C85_lost_cache_file_refuted)."
  },
  {
   "property": "C86",
   "status": "proved",
   "theorems": [
    "C86_totals"
   ],
   "note": "C86_totals, for actions whose data python hash() does not confuse (as C29)."
  },
  {
   "property": "C87",
   "status": "proved",
   "theorems": [
    "C87_nearest",
    "C87_total",
    "C87_array",
    "C87_exact",
    "C87_recolour",
    "C87_default_range",
    "C87_recolour_total"
   ],
   "note": "In exact arithmetic on triples of numbers: the rounding of numpy floats and NaN are not modelled; a negative index, which python counts from the end, is refused by the model. C87_array needs a range that is not empty."
  },
  {
   "property": "C88",
   "status": "proved",
   "theorems": [
    "C88_dump",
    "C88_length",
    "C88_roundtrip",
    "C88_nothing",
    "C88_injective",
    "C88_limit",
    "C88_one_line",
    "C88_reader"
   ],
   "note": "The dump of no byte is the empty string, which str_hex refuses (C88_nothing). Of the texts int(x, 16) accepts only hexadecimal digits are modelled."
  },
  {
   "property": "C89",
   "status": "proved",
   "theorems": [
    "C89_size",
    "C89_monotone",
    "C89_unambiguous",
    "C89_bytes"
   ],
   "note": "Sizes below 2^53, whose floats are exact. Just below a boundary the smaller unit is kept (1048575 prints as 1024.00 KiB), which the statement allows."
  },
  {
   "property": "C90",
   "status": "partial",
   "theorems": [
    "C90_added",
    "C90_inverse",
    "C90_game_kept",
    "C90_own_object",
    "C90_constants",
    "C90_from_constant_refuted"
   ],
   "note": "Everything but from_constant, which is false of the code: it has no return statement and gives None (C90_from_constant_refuted). Of a variable only var, start and size are modelled, with sizes that are not negative; the property and variable tables of the game's own features are not part of this model."
  }
 ]
}