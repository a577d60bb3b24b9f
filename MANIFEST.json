{
 "claims": [
  {
   "property": "C01",
   "status": "proved",
   "theorems": [
    "C01_block_structure_preserved",
    "C01_end_prefixed_parameter_refuted"
   ],
   "note": "Every statement sequence that is the flattening of a well-formed label tree (any depth, any size). Finding: parameters whose names begin with END are taken for closing brackets (_refuted)."
  },
  {
   "property": "C02",
   "status": "proved",
   "theorems": [
    "C02_never_raises",
    "C02_surplus_ends_ignored",
    "C02_unclosed_block",
    "C02_cases_exhaustive",
    "C02_unclosed_contents_lost_refuted"
   ],
   "note": "C02_cases_exhaustive shows that the surplus-END and unclosed-block theorems cover every statement sequence. Finding: the contents of an unclosed block are lost (_refuted)."
  },
  {
   "property": "C03",
   "status": "proved",
   "theorems": [
    "C03_text_to_statements",
    "C03_second_equals_refuted",
    "C03_continuation_space_refuted",
    "C03_short_key_refuted",
    "C03_bare_end_group_refuted"
   ],
   "note": "For text in the written form [writes] (Spec/Pvl.v). Findings (_refuted): a second '=' drops the statement, continuation lines lose their separating space, a short key with a lower-case value is merged into the previous statement, a bare END_GROUP line is glued to the previous value."
  },
  {
   "property": "C04",
   "status": "proved",
   "theorems": [
    "C04_no_comment_untouched",
    "C04_comment_to_end_of_line",
    "C04_comment_invisible",
    "C04_last_line_refuted",
    "C04_text_after_comment_refuted",
    "C04_double_opening_refuted"
   ],
   "note": "Comments running to the end of their line. Findings (_refuted): comment on the last line kept, text after the comment's end dropped, second opening on a line leaks the rest."
  },
  {
   "property": "C05",
   "status": "proved",
   "theorems": [
    "C05_based_integer",
    "C05_based_integer_round_trip",
    "C05_based_integer_list",
    "C05_reading",
    "C05_unclosed_numeral_refuted"
   ],
   "note": "All bases 2..36, all digit strings, both letter cases; lists with blanks. ast.literal_eval is a parameter. Finding: 16#FF without its closing sharp is read as 15 (_refuted)."
  },
  {
   "property": "C06",
   "status": "proved",
   "theorems": [
    "C06_values_only",
    "C06_never_raises",
    "C06_value_never_raises"
   ],
   "note": "For every literal_eval; total when literal_eval fails only with SyntaxError/ValueError."
  },
  {
   "property": "C07",
   "status": "proved",
   "theorems": [
    "C07_mapping_renamed",
    "C07_params_in_step",
    "C07_no_duplicates_unchanged",
    "C07_keys_and_skeleton_determine",
    "C07_more_blocks_than_pointers_refuted",
    "C07_params_out_of_step_refuted",
    "C07_name_clash_refuted"
   ],
   "note": "For both traversal orders of the external key search; document order means order of completion (a block's name after its contents). Findings (_refuted): IndexError with more blocks than pointers, parameter list out of step without blocks, clash with an existing NAME_0."
  },
  {
   "property": "C08",
   "status": "proved",
   "theorems": [
    "C08_inverse",
    "C08_idempotent"
   ],
   "note": ""
  },
  {
   "property": "C09",
   "status": "proved",
   "theorems": [
    "C09_prefix",
    "C09_ends_at_first_marker",
    "C09_ends_at_unix_end",
    "C09_no_ending",
    "C09_binary_head_rejected",
    "C09_straddling_marker_refuted",
    "C09_earlier_unix_end_refuted",
    "C09_marker_in_head_refuted"
   ],
   "note": "For every read size. Findings (_refuted): a marker straddling two reads is missed for every read size; a bare END line is overlooked when a carriage-return END follows in the same read; a marker touching the first 20 bytes is missed. Decoding to text is a parameter."
  },
  {
   "property": "C10",
   "status": "proved",
   "theorems": [
    "C10_absent",
    "C10_first_in_document",
    "C10_top_level_first",
    "C10_unique",
    "C10_some_value",
    "C10_read_only",
    "C10_never_raises_refuted",
    "C10_raises_iff",
    "C10_identifiers"
   ],
   "note": "For both traversal orders of the external key search. Findings (_refuted): an unhashable default raises TypeError when the key is present."
  },
  {
   "property": "C11",
   "status": "proved",
   "theorems": [
    "C11_absent",
    "C11_first_in_document",
    "C11_top_level_first",
    "C11_unique",
    "C11_is_mapping",
    "C11_not_a_block_refuted"
   ],
   "note": "Finding (_refuted): a name whose entry is not a block returns the whole label."
  },
  {
   "property": "C12",
   "status": "proved",
   "theorems": [
    "C12_get",
    "C12_block",
    "C12_transparent",
    "C12_refresh",
    "C12_current",
    "C12_stale_refuted",
    "C12_new_key_refuted"
   ],
   "note": "Edits replace the whole mapping (aliasing of returned sub-mappings is not modelled). Findings (_refuted): stale answers until refresh; keys added after construction are never found even after refresh_cache."
  },
  {
   "property": "C13",
   "status": "proved",
   "theorems": [
    "C13_found",
    "C13_missing",
    "C13_only_error",
    "C13_exact",
    "C13_other_case",
    "C13_compressed",
    "C13_skip",
    "C13_compressed_case_refuted",
    "C13_trailing_dot_refuted"
   ],
   "note": "File system = directory listings in arbitrary order. Findings (_refuted): a compressed file asked for in the wrong case is not found; names ending in a dot stand in for unrelated names."
  },
  {
   "property": "C14",
   "status": "proved",
   "theorems": [
    "C14_given",
    "C14_itself",
    "C14_search",
    "C14_compressed_refuted"
   ],
   "note": "Finding (_refuted): the detached label x.lbl of x.img.gz is not found."
  },
  {
   "property": "C15",
   "status": "proved",
   "theorems": [
    "C15_right_byte",
    "C15_nonnegative",
    "C15_unique",
    "C15_standalone_refuted",
    "C15_target"
   ],
   "note": "An equivalence: data_start_byte answers z exactly when the pointer names byte z in the PDS3 reading (starts_at), and raises otherwise; integers only. Finding (_refuted): standalone_start_byte always answers for IMAGE."
  },
  {
   "property": "C16",
   "status": "proved",
   "theorems": [
    "C16_extent",
    "C16_negative_start",
    "C16_bytes_read",
    "C16_exact_rows",
    "C16_rows",
    "C16_rows_open",
    "C16_lines",
    "C16_open_refuted",
    "C16_prefix_refuted",
    "C16_bare_row_refuted"
   ],
   "note": "Byte- and line-located tables. Findings (_refuted): a missing RECORD_BYTES identifier makes the length '' and the read raises; ROW_PREFIX_BYTES is not counted; a stream table whose pointer is a bare row number raises TypeError."
  },
  {
   "property": "C17",
   "status": "proved",
   "theorems": [
    "C17_integers",
    "C17_reals",
    "C17_odd_reals",
    "C17_text",
    "C17_opaque",
    "C17_unknown",
    "C17_odd_integers_refuted",
    "C17_qube_integers_refuted"
   ],
   "note": "Integers 1/2/4/8 bytes, reals 4/8, text, opaque, odd reals and unknown names proved for sample_types(for_numpy=True). Refutations: integers of any other width are silently read as one byte; with for_numpy=False (qubes) 4-byte integers become 8-byte longs and 8-byte ones single bytes."
  },
  {
   "property": "C18",
   "status": "proved",
   "theorems": [
    "C18_representable",
    "C18_isis_bits",
    "C18_isis_null",
    "C18_int32_na_refuted"
   ],
   "note": "All listed constants representable; ISIS bits equal the hexadecimal patterns; NULL within double rounding of FF7FFFFB. Refutation: int32 N/A is -214743648 (typo), not -2147483648."
  },
  {
   "property": "C19",
   "status": "proved",
   "theorems": [
    "C19_big",
    "C19_little",
    "C19_length",
    "C19_little_refuted"
   ],
   "note": "Finding (C19_little_refuted): little-endian columns of every width other than 1, 2, 4, 8 are scrambled (proved for each such width)."
  },
  {
   "property": "C20",
   "status": "proved",
   "theorems": [
    "C20_pieces",
    "C20_tiling",
    "C20_label",
    "C20_workflow",
    "C20_special_refuted",
    "C20_data_type"
   ],
   "note": "Integer START_BIT/BITS. Finding (_refuted): the JIRAM start-bit correction is tested by substring, so it also applies to products without an instrument name."
  },
  {
   "property": "C21",
   "status": "proved",
   "theorems": [
    "C21_words"
   ],
   "note": "Minimality over all lists of 1/2/4/8-byte words."
  },
  {
   "property": "C22",
   "status": "proved",
   "theorems": [
    "C22_multiband",
    "C22_single_band",
    "C22_no_storage",
    "C22_short_file"
   ],
   "note": "From the label block and the file's bytes to the array, for plain and compressed files. Decoding of one sample's bytes is a parameter. Object-specific special cases (formats/) not modelled."
  },
  {
   "property": "C23",
   "status": "proved",
   "theorems": [
    "C23_single_band",
    "C23_line_interleaved",
    "C23_line_interleaved_not_last_refuted",
    "C23_unaligned",
    "C23_other_storage"
   ],
   "note": "Single-band and line-interleaved images. Refutation: a line-interleaved multi-band image with line prefixes that is followed by other data always fails with ValueError (its pixel count is overstated)."
  },
  {
   "property": "C24",
   "status": "proved",
   "theorems": [
    "C24_qube",
    "C24_one_band",
    "C24_two_axes",
    "C24_zero_suffix_refuted",
    "C24_no_axis_name_refuted"
   ],
   "note": "All storage orders, any padded axis, prefix and suffix together. The planes are computed but read_image discards them. Refutations: a suffix declared with zero items empties the image; a QUBE without AXIS_NAME can never be read. Nested CORE groups are not modelled."
  },
  {
   "property": "C25",
   "status": "proved",
   "theorems": [
    "C25_columns_where_label_says",
    "C25_text_ranges",
    "C25_row_length",
    "C25_cells",
    "C25_overlapping_items_refused",
    "C25_row_short_refuted",
    "C25_prefix_row_short_refuted",
    "C25_item_order_refuted",
    "C25_gap_before_container_refuted",
    "C25_container_first_refuted",
    "C25_adjacent_containers_refuted"
   ],
   "note": "Proved end to end from the label block (says_table) to offsets and row length. Refuted outside those conditions: a last multi-item column or a row prefix makes the row too short; multi-item columns listed out of row order are mixed up; a gap before a container is ignored; a table that begins with a repeated container reads every repetition from the first; a repeated container right after a repeated container is scattered. Not modelled: nested containers are modelled but no positive theorem is proved about them."
  },
  {
   "property": "C26",
   "status": "proved",
   "theorems": [
    "C26_length_kept",
    "C26_unique_names_kept",
    "C26_duplicates_numbered",
    "C26_reserved_numbered",
    "C26_names_become_unique",
    "C26_names_can_collide_refuted"
   ],
   "note": "Refuted without the condition: [A, A, A_0] becomes [A_0, A_1, A_0]."
  },
  {
   "property": "C27",
   "status": "proved",
   "theorems": [
    "C27_mask",
    "C27_found",
    "C27_names",
    "C27_mask_survives",
    "C27_finds",
    "C27_scaled_integers",
    "C27_single_precision_refuted",
    "C27_null_overridden_refuted",
    "C27_uint64_refuted"
   ],
   "note": "Proved for the found constants (an equivalence) and the mask. Refuted: 1e32 and -1e32 in single-precision arrays are found but not masked; the label's NULL is forgotten if the customary NULL occurs; uint64 arrays raise KeyError. Strings, mappings as constants are TypeError in the model."
  },
  {
   "property": "C28",
   "status": "proved",
   "theorems": [
    "C28_unscaled",
    "C28_integers",
    "C28_floats",
    "C28_exact",
    "C28_integer_product",
    "C28_planes",
    "C28_planes_integers",
    "C28_silent_wrap_refuted",
    "C28_refit_swapped_refuted",
    "C28_planes_without_offset_refuted",
    "C28_rows_refuted"
   ],
   "note": "numpy 2 arithmetic with IEEE rounding (Base/Float.v). The float theorems assume numbers well below the largest one of the type. Refuted: integer results that do not fit wrap silently; after an overflowing factor the larger type is chosen with factor and offset exchanged; per-plane factors without per-plane offsets apply along the columns; per-row factors of a 2-D array add an axis. PDS4 scaling is C47."
  },
  {
   "property": "C29",
   "status": "proved",
   "theorems": [
    "C29_cast",
    "C29_planes",
    "C29_lists",
    "C29_number_factors_refuted"
   ],
   "note": "Refuted for single numbers: any array that would keep its type raises TypeError."
  },
  {
   "property": "C30",
   "status": "proved",
   "theorems": [
    "C30_fits",
    "C30_chosen",
    "C30_fractional",
    "C30_negative_scale_refuted",
    "C30_double_refuted"
   ],
   "note": "Refuted for negative factors (bounds exchanged) and for float64 (always TypeError)."
  },
  {
   "property": "C31",
   "status": "proved",
   "theorems": [
    "C31_missing",
    "C31_filled",
    "C31_failure",
    "C31_loader",
    "C31_required",
    "C31_optional_refuted",
    "C31_order_refuted"
   ],
   "note": "Functions are arbitrary maps from arguments to results or exceptions. Findings (_refuted): Optional-annotated arguments without default are never queried; a query depending on a later one is called without its answer."
  },
  {
   "property": "C32",
   "status": "proved",
   "theorems": [
    "C32_special",
    "C32_generic",
    "C32_failure"
   ],
   "note": "The flag test 'is True' is a parameter."
  },
  {
   "property": "C33",
   "status": "proved",
   "theorems": [
    "C33_choice",
    "C33_numbered",
    "C33_ignored",
    "C33_file_name_refuted"
   ],
   "note": "The special cases of check_trivial_case are an arbitrary predicate on names. The ignore pattern is hand-translated for names without newlines. Finding (_refuted): file_extension_to_loader is given the pointer rather than the file name, so FILE_NAME objects always get the TBD loader."
  },
  {
   "property": "C34",
   "status": "proved",
   "theorems": [
    "C34_unknown",
    "C34_already",
    "C34_loads",
    "C34_history",
    "C34_values_kept",
    "C34_purge",
    "C34_unloaded",
    "C34_replaced_refuted"
   ],
   "note": "Loaders are an arbitrary function of the whole state and name (five outcomes covering the branches of load and _load_pds4). C34_replaced_refuted: loading one object can replace another already loaded one. Metadata fallbacks are arbitrary values; a fallback of None is a value set by setattr."
  },
  {
   "property": "C35",
   "status": "proved",
   "theorems": [
    "C35_access",
    "C35_every_key",
    "C35_nothing_refuted",
    "C35_builtin_key_refuted"
   ],
   "note": "C35_nothing_refuted and C35_builtin_key_refuted show where the unconditional reading of the property fails."
  },
  {
   "property": "C36",
   "status": "proved",
   "theorems": [
    "C36_terminates",
    "C36_all",
    "C36_complete",
    "C36_all_refuted"
   ],
   "note": "C36_all_refuted: an object called all makes load('all') recurse without end. Termination is stated with a step bound that exists for each product (the model's loop is fuelled; more fuel gives the same result)."
  },
  {
   "property": "C37",
   "status": "proved",
   "theorems": [
    "C37_limits",
    "C37_shades",
    "C37_black_white",
    "C37_order",
    "C37_small_integers",
    "C37_masked",
    "C37_hidden",
    "C37_constant",
    "C37_wide_refuted",
    "C37_purge_wraps_refuted",
    "C37_purge_differs_refuted",
    "C37_nice_clip_refuted"
   ],
   "note": "Arrays of numpy ints, float32 and float64 with float rounding and integer wrap-around as in Model/Scaling.v. Simplifications: percentile interpolation computed exactly before the cast, NaN/infinite elements not modelled. Refuted parts: wide integers, purge, nice_clip of a single value."
  },
  {
   "property": "C38",
   "status": "proved",
   "theorems": [
    "C38_band",
    "C38_rgb",
    "C38_channels",
    "C38_burst",
    "C38_transposed_refuted",
    "C38_empty_refuted"
   ],
   "note": "Band choice on any 3-D array, any axis. Refuted parts: bands on the last axis come out transposed; zero bands."
  },
  {
   "property": "C39",
   "status": "proved",
   "theorems": [
    "C39_prefix_free",
    "C39_reads_back",
    "C39_complete",
    "C39_other_tables"
   ],
   "note": "All eight tables; bit positions arbitrary."
  },
  {
   "property": "C40",
   "status": "proved",
   "theorems": [
    "C40_file",
    "C40_no_end",
    "C40_every_image",
    "C40_damaged",
    "C40_resync",
    "C40_damage",
    "C40_shift_refuted",
    "C40_ends",
    "C40_both_refuted"
   ],
   "note": "Complete files to pixels for coded and predicted images; transform fragments are an abstract function here (C60 has them). Refuted parts: prediction from both sides, which headers can name, always fails; and when bytes are lost in a group (the next marker is found at another place than expected), every later group is read from the same recovered place, so the image repeats one group (C40_shift_refuted)."
  },
  {
   "property": "C41",
   "status": "proved",
   "theorems": [
    "C41_prefix_free",
    "C41_code",
    "C41_truncated",
    "C41_file",
    "C41_every_image",
    "C41_cut",
    "C41_hang_refuted",
    "C41_any",
    "C41_fuel",
    "C41_16bit_refuted",
    "C41_raw",
    "C41_thumbnail",
    "C41_thumbnail_default",
    "C41_thumbnail_refuted",
    "C41_offset_refuted",
    "C41_jpeg",
    "C41_jpeg_none",
    "C41_no_header",
    "C41_header_marker_refuted"
   ],
   "note": "Refuted parts: C41_hang_refuted, C41_16bit_refuted, C41_header_marker_refuted, C41_offset_refuted, C41_thumbnail_refuted. Pillow is a parameter."
  },
  {
   "property": "C42",
   "status": "proved",
   "theorems": [
    "C42_moc_reads",
    "C42_moc_range",
    "C42_moc_too_many",
    "C42_moc_short",
    "C42_moc_past_end_refuted",
    "C42_msl_bits",
    "C42_msl_rewind"
   ],
   "note": "Refuted part: C42_moc_past_end_refuted."
  },
  {
   "property": "C43",
   "status": "proved",
   "theorems": [
    "C43_label",
    "C43_count",
    "C43_order",
    "C43_unpack",
    "C43_text",
    "C43_order_refuted",
    "C43_attributes_refuted",
    "C43_text_name_refuted",
    "C43_namespace_refuted"
   ],
   "note": "Refuted parts: C43_order_refuted, C43_attributes_refuted, C43_text_name_refuted, C43_namespace_refuted. The XML parser is not modelled."
  },
  {
   "property": "C44",
   "status": "proved",
   "theorems": [
    "C44_file",
    "C44_values",
    "C44_extra_refuted",
    "C44_two_extra_refuted",
    "C44_short_refuted",
    "C44_records_refuted",
    "C44_no_records_refuted"
   ],
   "note": "every field and record for tables without groups, any quoting; the table found in its file; five refutations (extra columns, two extra, missing columns depend on memory, missing records, no records)"
  },
  {
   "property": "C45",
   "status": "proved",
   "theorems": [
    "C45_values",
    "C45_checked",
    "C45_zero_refuted",
    "C45_missing_refuted"
   ],
   "note": "all trees of groups; places in the file; characterisation of refusal; refuted: 0 repetitions, file that ends before the table"
  },
  {
   "property": "C46",
   "status": "proved",
   "theorems": [
    "C46_holds",
    "C46_chosen",
    "C46_narrowest",
    "C46_array",
    "C46_lowest_refuted",
    "C46_array_refuted"
   ],
   "note": "all values fit, no narrower type (except at the lowest number); arrays whose lowest element is the lowest number are treated separately"
  },
  {
   "property": "C47",
   "status": "proved",
   "theorems": [
    "C47_exact",
    "C47_runs",
    "C47_unsigned_refuted",
    "C47_offset_refuted",
    "C47_double",
    "C47_double_runs"
   ],
   "note": "exactness of integer scaling for all arrays; success characterised from the extreme values; double precision case with success; refuted for unsigned sizes with a signed factor; refuted for offsets from 2^63"
  },
  {
   "property": "C48",
   "status": "proved",
   "theorems": [
    "C48_int",
    "C48_float",
    "C48_float_exact",
    "C48_decimal_refuted",
    "C48_range_refuted",
    "C48_unscaled_refuted"
   ],
   "note": "exact masking for integers and floats; refuted for decimal constants, constants out of range and labels without scaling"
  },
  {
   "property": "C49",
   "status": "proved",
   "theorems": [
    "C49_lines",
    "C49_canonical",
    "C49_values",
    "C49_elements"
   ],
   "note": "reads_as (Spec/Position.v) is the reading of a text as lines with any of the three endings; every text has exactly one."
  },
  {
   "property": "C50",
   "status": "proved",
   "theorems": [
    "C50_stream_iff",
    "C50_delimiter"
   ],
   "note": "Target tuples are non-empty."
  },
  {
   "property": "C51",
   "status": "proved",
   "theorems": [
    "C51_format_files_spliced",
    "C51_every_expansion_found",
    "C51_one_pass",
    "C51_missing_file_raises",
    "C51_self_inclusion_diverges_refuted"
   ],
   "note": "The program terminates exactly when an expansion exists; a self-including file loops forever (refuted)."
  },
  {
   "property": "C52",
   "status": "proved",
   "theorems": [
    "C52_repeat",
    "C52_length"
   ],
   "note": "The expansion of nested format definitions is C51."
  },
  {
   "property": "C53",
   "status": "proved",
   "theorems": [
    "C53_short",
    "C53_long",
    "C53_long_refuted",
    "C53_cast_refuted",
    "C53_column",
    "C53_column_uncast",
    "C53_items_refuted",
    "C53_ieee",
    "C53_long_nearest"
   ],
   "note": "rnd64/rnd32 are any functions that keep the numbers their format holds. Findings (_refuted): 64-bit fractions above 53 bits cannot be exact; the down-cast check lets subnormal singles lose bits; item columns are converted with the wrong width."
  },
  {
   "property": "C54",
   "status": "proved",
   "theorems": [
    "C54_exactly_accepted",
    "C54_values",
    "C54_all_accepted"
   ],
   "note": ""
  },
  {
   "property": "C55",
   "status": "proved",
   "theorems": [
    "C55_quantities",
    "C55_words",
    "C55_no_number"
   ],
   "note": "Numbers of digits, points and minus signs; units without angle brackets, commas, sharps or newlines."
  },
  {
   "property": "C56",
   "status": "proved",
   "theorems": [
    "C56_label_read",
    "C56_label_read_deduplicated"
   ],
   "note": "Composition of C01, C03, C06, C07 through parse_pvl."
  },
  {
   "property": "C57",
   "status": "proved",
   "theorems": [
    "C57_by_suffix",
    "C57_stand_in",
    "C57_fits"
   ],
   "note": "Decompression itself is external."
  },
  {
   "property": "C58",
   "status": "proved",
   "theorems": [
    "C58_root",
    "C58_none"
   ],
   "note": ""
  },
  {
   "property": "C59",
   "status": "proved",
   "theorems": [
    "C59_names",
    "C59_order",
    "C59_conflict",
    "C59_set_order_refuted"
   ],
   "note": "Finding (_refuted): ValueError can depend on the set's iteration order."
  },
  {
   "property": "C60",
   "status": "proved",
   "theorems": [
    "C60_coefficients",
    "C60_prefix_free",
    "C60_order",
    "C60_fragment",
    "C60_file",
    "C60_any",
    "C60_ends",
    "C60_other_transform_refuted",
    "C60_every"
   ],
   "note": "The butterfly of the inverse cosine transform (floating point) is an arbitrary function; everything around it is modelled, with the roundings of the mean. Finding: C60_other_transform_refuted."
  },
  {
   "property": "C61",
   "status": "proved",
   "theorems": [
    "C61_unscaled",
    "C61_widened",
    "C61_to_double",
    "C61_in_place_refuted",
    "C61_twice_refuted",
    "C61_failed_refuted",
    "C61_doubles_refuted"
   ],
   "note": "loaded array unchanged in the widening, to-double and unscaled cases; refuted in place for signed integers (with the second call), doubles, and failed calls"
  },
  {
   "property": "C62",
   "status": "proved",
   "theorems": [
    "C62_kept",
    "C62_special",
    "C62_absent_refuted",
    "C62_none_refuted",
    "C62_signed_refuted"
   ],
   "note": "bit by bit for all masks; refuted for absent constants, non-integer constants and masks with the sign bit"
  },
  {
   "property": "C63",
   "status": "proved",
   "theorems": [
    "C63_groups",
    "C63_128_refuted",
    "C63_256_refuted",
    "C63_index_refuted",
    "C63_uniform_refuted"
   ],
   "note": "all trees of groups under a condition on the last column numbers; refuted at 128 and 256 columns, for a first group of 129..254, and with uniformly sampled fields"
  },
  {
   "property": "C64",
   "status": "proved",
   "theorems": [
    "C64_pixels",
    "C64_bits",
    "C64_short_error",
    "C64_short_refuted",
    "C64_unknown"
   ],
   "note": "real and complex elements bit by bit; a missing end of a one-axis array refuted; bit masks of arrays without special constants (with them: C62)"
  },
  {
   "property": "C65",
   "status": "proved",
   "theorems": [
    "C65_integers",
    "C65_integers_error",
    "C65_based",
    "C65_reals",
    "C65_booleans",
    "C65_binary",
    "C65_binary_characters",
    "C65_text"
   ],
   "note": "integers: iff, with the error; reals: iff, with the error; booleans and based integers: the values of legal texts"
  },
  {
   "property": "C66",
   "status": "proved",
   "theorems": [
    "C66_frame",
    "C66_missing",
    "C66_special",
    "C66_special_refuted",
    "C66_constant_refuted",
    "C66_deep_refuted",
    "C66_missing_refuted",
    "C66_fixed",
    "C66_delimited",
    "C66_delimited_missing"
   ],
   "note": "file to DataFrame for fixed-width and delimited tables; values left out shown as 0, special constants, triple nesting refuted; scaling and uniformly sampled tables not modelled"
  },
  {
   "property": "C67",
   "status": "proved",
   "theorems": [
    "C67_names",
    "C67_distinct",
    "C67_duplicates_refuted",
    "C67_comma_refuted",
    "C67_columns",
    "C67_columns_distinct",
    "C67_unnamed",
    "C67_unnamed_refuted",
    "C67_objects",
    "C67_objects_refuted",
    "C67_objects_unnamed"
   ],
   "note": "the names of all labels, distinctness under a condition on characters; commas, colons, unnamed groups and object name clashes refuted"
  },
  {
   "property": "C68",
   "status": "proved",
   "theorems": [
    "C68_header",
    "C68_data",
    "C68_nowhere",
    "C68_empty_refuted",
    "C68_byte_pointer",
    "C68_record_pointer",
    "C68_pds3",
    "C68_file_pointer",
    "C68_file_pointer_refuted",
    "C68_wrong_file",
    "C68_record_unit_refuted",
    "C68_record_number_refuted",
    "C68_pds4_header",
    "C68_pds4_data",
    "C68_pds4_identifier_refuted",
    "C68_pds4_file_refuted"
   ],
   "note": "astropy's division of the file into HDUs, cards and data is trusted; six refutations"
  },
  {
   "property": "C69",
   "status": "proved",
   "theorems": [
    "C69_keys",
    "C69_metadata",
    "C69_bad_card_refuted",
    "C69_access",
    "C69_clash_refuted",
    "C69_header_names_refuted",
    "C69_table",
    "C69_columns_distinct",
    "C69_columns_refuted"
   ],
   "note": "end to end from the HDUs to data[key] on the object's life cycle of C34; four refutations"
  },
  {
   "property": "C70",
   "status": "proved",
   "theorems": [
    "C70_header_rows",
    "C70_header_bytes",
    "C70_long_header_refuted",
    "C70_no_length",
    "C70_text",
    "C70_texts",
    "C70_label",
    "C70_attached_label"
   ],
   "note": "decoding is the identity (ASCII or ISO-8859-1); fmt=pvl is not modelled; one refutation"
  },
  {
   "property": "C71",
   "status": "proved",
   "theorems": [
    "C71_index",
    "C71_access",
    "C71_other_formats_refuted",
    "C71_scaled_later",
    "C71_cut_off"
   ],
   "note": "pillow's decoding is trusted; end to end on the object's life cycle of C34; one refutation"
  },
  {
   "property": "C72",
   "status": "proved",
   "theorems": [
    "C72_binary",
    "C72_short",
    "C72_unknown",
    "C72_text",
    "C72_text_count",
    "C72_numbers",
    "C72_compressed_refuted",
    "C72_foreign_reals_refuted",
    "C72_axis_order_refuted",
    "C72_exponent_refuted",
    "C72_point_refuted",
    "C72_start_refuted",
    "C72_ascii_types_refuted"
   ],
   "note": "arrays with a subobject (COLLECTION, ELEMENT, ARRAY) are not modelled; seven refutations"
  },
  {
   "property": "C73",
   "status": "proved",
   "theorems": [
    "C73_values",
    "C73_unknown_types_fail",
    "C73_placeholder_dropped_refuted",
    "C73_ibm_items_refuted",
    "C73_name_clash_refuted"
   ],
   "note": "special sample types, bit columns and nested arrays are not modelled here; byte-string columns with factors are not modelled (an error in the model)"
  },
  {
   "property": "C74",
   "status": "proved",
   "theorems": [
    "C74_factors_applied",
    "C74_wraps_refuted",
    "C74_other_columns_matter",
    "C74_zero_factor_refuted",
    "C74_large_factor_refuted"
   ],
   "note": "the example of C73 (C73_meets) meets its hypotheses too; four refutations or surprises"
  },
  {
   "property": "C75",
   "status": "proved",
   "theorems": [
    "C75_listed",
    "C75_several_formats",
    "C75_undescribed",
    "C75_undescribed_fails",
    "C75_special_products",
    "C75_listed_once",
    "C75_prefix_position",
    "C75_other_blocks",
    "C75_prefix_rows",
    "C75_same_place_refuted",
    "C75_opens_refuted",
    "C75_listed_once_refuted"
   ],
   "note": "check_special_objects is modelled; check_special_fn, check_special_block and check_special_offset are parameters"
  },
  {
   "property": "C76",
   "status": "proved",
   "theorems": [
    "C76_named_file",
    "C76_special_name",
    "C76_missing_file",
    "C76_opened_file",
    "C76_remembered",
    "C76_looked_for_again",
    "C76_compressed_pair",
    "C76_neither",
    "C76_same_every_run_refuted",
    "C76_prefix_table_file_refuted"
   ],
   "note": "names of files with directories in them are modelled (path_of) but the theorems are about bare names; sets of object names and FILE_NAMEs that are sequences are not modelled"
  },
  {
   "property": "C77",
   "status": "proved",
   "theorems": [
    "C77_delimited",
    "C77_spreadsheet",
    "C77_rows_unique",
    "C77_blank_text",
    "C77_leading_zeros_refuted",
    "C77_missing_words_refuted",
    "C77_lines_total"
   ],
   "note": "pandas' C tokenizer and type inference are modelled by us from pandas' documented behaviour; its conversions of decimal texts (xstrtod, precise_xstrtod) are parameters. Refuted beside: characters such as 007 become integers, words such as NA become missing."
  },
  {
   "property": "C78",
   "status": "proved",
   "theorems": [
    "C78_fixed_width",
    "C78_accidental_commas_refuted",
    "C78_blank_rows_refuted"
   ],
   "note": "the columns pandas guesses when nothing is found at the label's positions (detect_colspecs) are a parameter and nothing is proved of that case. Refuted beside: rows with the right number of commas by accident are split there; blank rows are left out."
  },
  {
   "property": "C79",
   "status": "proved",
   "theorems": [
    "C79_one_band",
    "C79_many_bands",
    "C79_padded_lines",
    "C79_short_file",
    "C79_qube",
    "C79_qube_of_one_band",
    "C79_product",
    "C79_ibm_reals_refuted",
    "C79_qube_integers_refuted",
    "C79_no_type"
   ],
   "note": "VAX reals go through another library (a parameter). Refuted beside: IBM reals are read as unsigned integers; four-byte integers of qubes are read eight bytes at a time."
  },
  {
   "property": "C80",
   "status": "proved",
   "theorems": [
    "C80_integers",
    "C80_integers_by_reals",
    "C80_reals",
    "C80_bands_integers",
    "C80_bands_reals",
    "C80_file",
    "C80_wrap_refuted",
    "C80_long_integers_refuted"
   ],
   "note": "for real images it is proved where no constant customary for the type occurs (C27 refutes that these are masked in single precision). Refuted beside: integers that do not fit wrap around; 8-byte unsigned integers cannot be scaled."
  },
  {
   "property": "C81",
   "status": "proved",
   "theorems": [
    "C81_bins",
    "C81_counts",
    "C81_short_file",
    "C81_text_refused",
    "C81_start_byte_refused",
    "C81_total_bytes_refuted",
    "C81_no_items_refuted"
   ],
   "note": "for items of numbers; not for foreign reals. Refuted beside: BYTES without ITEM_BYTES counts as the width of each item, so that nothing is read; ITEMS = 0 counts as 1."
  },
  {
   "property": "C82",
   "status": "proved",
   "theorems": [
    "C82_opened",
    "C82_image",
    "C82_table",
    "C82_text_array_refuted",
    "C82_array",
    "C82_histogram",
    "C82_unlisted",
    "C82_missing_file",
    "C82_letter_case",
    "C82_decoding",
    "C82_delimited",
    "C82_fixed_width",
    "C82_spreadsheet"
   ],
   "note": "the composition of C03-C06, C09-C11, C13-C16, C33, C72, C73, C75, C76, C79 and C81 in one model of opening and loading. Not for products with special cases in pdr/formats/. Refuted beside: arrays written as text are looked for in the whole file, so that with an attached label they are an error."
  },
  {
   "property": "C83",
   "status": "proved",
   "theorems": [
    "C83_own_mission",
    "C83_strays",
    "C83_msb",
    "C83_as_usual",
    "C83_bit_starts",
    "C83_each_applies",
    "C83_file_names",
    "C83_file_names_refuted",
    "C83_numbers",
    "C83_numbers_refuted",
    "C83_paths",
    "C83_conditions",
    "C83_answers",
    "C83_huygens",
    "C83_products",
    "C83_handled",
    "C83_handled_first"
   ],
   "note": "each if of checkers.py is transcribed as a rule of a small language of conditions with Python's lazy evaluation and errors; which rules apply is decided by reflection on their conditions. What a handler makes of an object is the result of loading it. What a handler does is not modelled, but for cassini.get_offset. Findings: a FILE_NAME containing STRIP, VISIBL, IMAGE, IR_, TIME, SUN or SOLAR sends any product to cassini.get_offset; a numeric FILE_NAME raises TypeError; a path with CE1-3 and .01 is read as GB18030; a product without INSTRUMENT_NAME matches a rule of JIRAM."
  },
  {
   "property": "C84",
   "status": "proved",
   "theorems": [
    "C84_index",
    "C84_array",
    "C84_fixed",
    "C84_delimited",
    "C84_delimited_missing"
   ],
   "note": "from the tree the XML parser makes to the values; fields and groups with the elements of the PDS4 schema (FIELD_PARTS, GROUP_PARTS: no Packed_Data_Fields); File first in its area, with leaves; file areas that are missing what the reader checks for, bit masks, uniformly sampled fields, FITS files and headers are outside the theorems. Uses C43 (text of elements), C64 (pixels), C66 (DataFrames) and C67 (names)."
  },
  {
   "property": "C85",
   "status": "proved",
   "theorems": [
    "C85_xmp",
    "C85_xmp_refused",
    "C85_xmp_void",
    "C85_xmp_found",
    "C85_metadata",
    "C85_lookup",
    "C85_refused"
   ],
   "note": "Pillow's tables, its parsers of tags and profiles, and ElementTree are parameters. Names of position tags have GPS only in front, or not at all. Two attributes with the same name in different namespaces: the dict has only the last (the statement says so)."
  },
  {
   "property": "C86",
   "status": "proved",
   "theorems": [
    "C86_packed",
    "C86_records",
    "C86_memory",
    "C86_short",
    "C86_gap_refuted",
    "C86_nested_array_refuted",
    "C86_nested_records_refuted",
    "C86_bare"
   ],
   "note": "Three parts of the documented behaviour are false of the code and proved so: C86_gap_refuted, C86_nested_array_refuted, C86_nested_records_refuted."
  },
  {
   "property": "C87",
   "status": "proved",
   "theorems": [
    "C87_linear_integers",
    "C87_linear_large",
    "C87_linear_exact",
    "C87_linear_error",
    "C87_logarithmic_integers",
    "C87_logarithmic_reals",
    "C87_exponential_integers",
    "C87_no_records",
    "C87_scale_refuted",
    "C87_drift_refuted"
   ],
   "note": "Powers of floats, log10 and division of the logarithms are parameters of the theorems. The place of these fields in the table is not modelled (Model/Pds4Product.v refuses tables that have some)."
  },
  {
   "property": "C88",
   "status": "proved",
   "theorems": [
    "C88_same_block",
    "C88_corrections",
    "C88_pls_avg",
    "C88_pls_fine",
    "C88_pws",
    "C88_no_prefix",
    "C88_format_file",
    "C88_mariner",
    "C88_pfs",
    "C88_later_orbits",
    "C88_meteors",
    "C88_epac",
    "C88_supplement",
    "C88_wcl",
    "C88_wff",
    "C88_pra",
    "C88_pra_jupiter",
    "C88_all_channels",
    "C88_called",
    "C88_label_kept_refuted",
    "C88_reload_refuted",
    "C88_image_reload_refuted",
    "C88_failure_refuted"
   ],
   "note": "Modelled are 20 of the targets of check_special_block; those that only hand out a block of another name, or make a new one, and mgs.mola_pedr_special_block and galileo.ssi_prefix_block are not. For a block that is shared with another object, or absent, nothing is said."
  },
  {
   "property": "C89",
   "status": "proved",
   "theorems": [
    "C89_found",
    "C89_whole_table",
    "C89_label_too_short",
    "C89_cartesian",
    "C89_huygens",
    "C89_huygens_stream_refuted",
    "C89_opacity_table",
    "C89_opacity_header",
    "C89_bytes_left_out",
    "C89_themis",
    "C89_coiss",
    "C89_coiss_first_refuted",
    "C89_constants",
    "C89_envi",
    "C89_not_special",
    "C89_clementine"
   ],
   "note": "Model/SpecialPosition.v transcribes 11 position and 10 offset handlers behind the checkers of Model/Checkers.v and the generic queries of Model/Position.v. Two refuted theorems: the header of a Huygens file of lines (RECORD_TYPE STREAM, no RECORD_BYTES) is asked for as that many lines as it has bytes, which fails; an object of coiss_1006 in the first record is looked for before the start of the file. Clementine's pointers written as text are split as the code's regular expression does."
  }
 ]
}
