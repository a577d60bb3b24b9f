{
 "C01": {
  "note": "Every statement sequence that is the flattening of a well-formed label tree (any depth, any size). Finding: parameters whose names begin with END are taken for closing brackets (_refuted)."
 },
 "C02": {
  "note": "C02_cases_exhaustive shows that the surplus-END and unclosed-block theorems cover every statement sequence. Finding: the contents of an unclosed block are lost (_refuted)."
 },
 "C03": {
  "note": "For text in the written form [writes] (Spec/Pvl.v). Findings (_refuted): a second '=' drops the statement, continuation lines lose their separating space, a short key with a lower-case value is merged into the previous statement, a bare END_GROUP line is glued to the previous value."
 },
 "C04": {
  "note": "Comments running to the end of their line. Findings (_refuted): comment on the last line kept, text after the comment's end dropped, second opening on a line leaks the rest."
 },
 "C05": {
  "note": "All bases 2..36, all digit strings, both letter cases; lists with blanks. ast.literal_eval is a parameter. Finding: 16#FF without its closing sharp is read as 15 (_refuted)."
 },
 "C06": {
  "note": "For every literal_eval; total when literal_eval fails only with SyntaxError/ValueError."
 },
 "C07": {
  "note": "For both traversal orders of the external key search; document order means order of completion (a block's name after its contents). Findings (_refuted): IndexError with more blocks than pointers, parameter list out of step without blocks, clash with an existing NAME_0."
 },
 "C08": {
  "note": ""
 },
 "C09": {
  "note": "For every read size. Findings (_refuted): a marker straddling two reads is missed for every read size; a bare END line is overlooked when a carriage-return END follows in the same read; a marker touching the first 20 bytes is missed. Decoding to text is a parameter."
 },
 "C10": {
  "note": "For both traversal orders of the external key search. Findings (_refuted): an unhashable default raises TypeError when the key is present."
 },
 "C11": {
  "note": "Finding (_refuted): a name whose entry is not a block returns the whole label."
 },
 "C12": {
  "note": "Edits replace the whole mapping (aliasing of returned sub-mappings is not modelled). Findings (_refuted): stale answers until refresh; keys added after construction are never found even after refresh_cache."
 },
 "C13": {
  "note": "File system = directory listings in arbitrary order. Findings (_refuted): a compressed file asked for in the wrong case is not found; names ending in a dot stand in for unrelated names."
 },
 "C14": {
  "note": "Finding (_refuted): the detached label x.lbl of x.img.gz is not found."
 },
 "C15": {
  "note": "An equivalence: data_start_byte answers z exactly when the pointer names byte z in the PDS3 reading (starts_at), and raises otherwise; integers only. Finding (_refuted): standalone_start_byte always answers for IMAGE."
 },
 "C16": {
  "note": "Byte- and line-located tables. Findings (_refuted): a missing RECORD_BYTES identifier makes the length '' and the read raises; ROW_PREFIX_BYTES is not counted; a stream table whose pointer is a bare row number raises TypeError."
 },
 "C17": {
  "note": "Integers 1/2/4/8 bytes, reals 4/8, text, opaque, odd reals and unknown names proved for sample_types(for_numpy=True). Refutations: integers of any other width are silently read as one byte; with for_numpy=False (qubes) 4-byte integers become 8-byte longs and 8-byte ones single bytes."
 },
 "C18": {
  "note": "All listed constants representable; ISIS bits equal the hexadecimal patterns; NULL within double rounding of FF7FFFFB. Refutation: int32 N/A is -214743648 (typo), not -2147483648."
 },
 "C19": {
  "note": "Finding (C19_little_refuted): little-endian columns of every width other than 1, 2, 4, 8 are scrambled (proved for each such width)."
 },
 "C20": {
  "note": "Integer START_BIT/BITS. Finding (_refuted): the JIRAM start-bit correction is tested by substring, so it also applies to products without an instrument name."
 },
 "C21": {
  "note": "Minimality over all lists of 1/2/4/8-byte words."
 },
 "C22": {
  "note": "From the label block and the file's bytes to the array, for plain and compressed files. Decoding of one sample's bytes is a parameter. Object-specific special cases (formats/) not modelled."
 },
 "C23": {
  "note": "Single-band and line-interleaved images. Refutation: a line-interleaved multi-band image with line prefixes that is followed by other data always fails with ValueError (its pixel count is overstated)."
 },
 "C24": {
  "note": "All storage orders, any padded axis, prefix and suffix together. The planes are computed but read_image discards them. Refutations: a suffix declared with zero items empties the image; a QUBE without AXIS_NAME can never be read. Nested CORE groups are not modelled."
 },
 "C25": {
  "note": "Proved end to end from the label block (says_table) to offsets and row length. Refuted outside those conditions: a last multi-item column or a row prefix makes the row too short; multi-item columns listed out of row order are mixed up; a gap before a container is ignored; a table that begins with a repeated container reads every repetition from the first; a repeated container right after a repeated container is scattered. Not modelled: nested containers are modelled but no positive theorem is proved about them."
 },
 "C26": {
  "note": "Refuted without the condition: [A, A, A_0] becomes [A_0, A_1, A_0]."
 },
 "C27": {
  "note": "Proved for the found constants (an equivalence) and the mask. Refuted: 1e32 and -1e32 in single-precision arrays are found but not masked; the label's NULL is forgotten if the customary NULL occurs; uint64 arrays raise KeyError. Strings, mappings as constants are TypeError in the model."
 },
 "C28": {
  "note": "numpy 2 arithmetic with IEEE rounding (Base/Float.v). The float theorems assume numbers well below the largest one of the type. Refuted: integer results that do not fit wrap silently; after an overflowing factor the larger type is chosen with factor and offset exchanged; per-plane factors without per-plane offsets apply along the columns; per-row factors of a 2-D array add an axis. PDS4 scaling is C47."
 },
 "C29": {
  "note": "Refuted for single numbers: any array that would keep its type raises TypeError."
 },
 "C30": {
  "note": "Refuted for negative factors (bounds exchanged) and for float64 (always TypeError)."
 },
 "C31": {
  "note": "Functions are arbitrary maps from arguments to results or exceptions. Findings (_refuted): Optional-annotated arguments without default are never queried; a query depending on a later one is called without its answer."
 },
 "C32": {
  "note": "The flag test 'is True' is a parameter."
 },
 "C33": {
  "note": "The special cases of check_trivial_case are an arbitrary predicate on names. The ignore pattern is hand-translated for names without newlines. Finding (_refuted): file_extension_to_loader is given the pointer rather than the file name, so FILE_NAME objects always get the TBD loader."
 },
 "C34": {
  "note": "Loaders are an arbitrary function of the whole state and name (five outcomes covering the branches of load and _load_pds4). C34_replaced_refuted: loading one object can replace another already loaded one. Metadata fallbacks are arbitrary values; a fallback of None is a value set by setattr."
 },
 "C35": {
  "note": "C35_nothing_refuted and C35_builtin_key_refuted show where the unconditional reading of the property fails."
 },
 "C36": {
  "note": "C36_all_refuted: an object called all makes load('all') recurse without end. Termination is stated with a step bound that exists for each product (the model's loop is fuelled; more fuel gives the same result)."
 },
 "C37": {
  "note": "Arrays of numpy ints, float32 and float64 with float rounding and integer wrap-around as in Model/Scaling.v. Simplifications: percentile interpolation computed exactly before the cast, NaN/infinite elements not modelled. Refuted parts: wide integers, purge, nice_clip of a single value."
 },
 "C38": {
  "note": "Band choice on any 3-D array, any axis. Refuted parts: bands on the last axis come out transposed; zero bands."
 },
 "C39": {
  "note": "All eight tables; bit positions arbitrary."
 },
 "C40": {
  "note": "Complete files to pixels for coded and predicted images; transform fragments are an abstract function here (C60 has them). Refuted parts: prediction from both sides, which headers can name, always fails; and when bytes are lost in a group (the next marker is found at another place than expected), every later group is read from the same recovered place, so the image repeats one group (C40_shift_refuted)."
 },
 "C41": {
  "note": "Refuted parts: C41_hang_refuted, C41_16bit_refuted, C41_header_marker_refuted, C41_offset_refuted, C41_thumbnail_refuted. Pillow is a parameter."
 },
 "C42": {
  "note": "Refuted part: C42_moc_past_end_refuted."
 },
 "C43": {
  "note": "Refuted parts: C43_order_refuted, C43_attributes_refuted, C43_text_name_refuted, C43_namespace_refuted. The XML parser is not modelled."
 },
 "C44": {
  "note": "every field and record for tables without groups, any quoting; the table found in its file; five refutations (extra columns, two extra, missing columns depend on memory, missing records, no records)"
 },
 "C45": {
  "note": "all trees of groups; places in the file; characterisation of refusal; refuted: 0 repetitions, file that ends before the table"
 },
 "C46": {
  "note": "all values fit, no narrower type (except at the lowest number); arrays whose lowest element is the lowest number are treated separately"
 },
 "C47": {
  "note": "exactness of integer scaling for all arrays; success characterised from the extreme values; double precision case with success; refuted for unsigned sizes with a signed factor; refuted for offsets from 2^63"
 },
 "C48": {
  "note": "exact masking for integers and floats; refuted for decimal constants, constants out of range and labels without scaling"
 },
 "C49": {
  "note": "reads_as (Spec/Position.v) is the reading of a text as lines with any of the three endings; every text has exactly one."
 },
 "C50": {
  "note": "Target tuples are non-empty."
 },
 "C51": {
  "note": "The program terminates exactly when an expansion exists; a self-including file loops forever (refuted)."
 },
 "C52": {
  "note": "The expansion of nested format definitions is C51."
 },
 "C53": {
  "note": "rnd64/rnd32 are any functions that keep the numbers their format holds. Findings (_refuted): 64-bit fractions above 53 bits cannot be exact; the down-cast check lets subnormal singles lose bits; item columns are converted with the wrong width."
 },
 "C54": {
  "note": ""
 },
 "C55": {
  "note": "Numbers of digits, points and minus signs; units without angle brackets, commas, sharps or newlines."
 },
 "C56": {
  "note": "Composition of C01, C03, C06, C07 through parse_pvl."
 },
 "C57": {
  "note": "Decompression itself is external."
 },
 "C58": {
  "note": ""
 },
 "C59": {
  "note": "Finding (_refuted): ValueError can depend on the set's iteration order."
 },
 "C60": {
  "note": "The butterfly of the inverse cosine transform (floating point) is an arbitrary function; everything around it is modelled, with the roundings of the mean. Finding: C60_other_transform_refuted."
 },
 "C61": {
  "note": "loaded array unchanged in the widening, to-double and unscaled cases; refuted in place for signed integers (with the second call), doubles, and failed calls"
 },
 "C62": {
  "note": "bit by bit for all masks; refuted for absent constants, non-integer constants and masks with the sign bit"
 },
 "C63": {
  "note": "all trees of groups under a condition on the last column numbers; refuted at 128 and 256 columns, for a first group of 129..254, and with uniformly sampled fields"
 },
 "C64": {
  "note": "real and complex elements bit by bit; a missing end of a one-axis array refuted; bit masks of arrays without special constants (with them: C62)"
 },
 "C65": {
  "note": "integers: iff, with the error; reals: iff, with the error; booleans and based integers: the values of legal texts"
 },
 "C66": {
  "note": "file to DataFrame for fixed-width and delimited tables; values left out shown as 0, special constants, triple nesting refuted; scaling and uniformly sampled tables not modelled"
 },
 "C67": {
  "note": "the names of all labels, distinctness under a condition on characters; commas, colons, unnamed groups and object name clashes refuted"
 },
 "C68": {
  "note": "astropy's division of the file into HDUs, cards and data is trusted; six refutations"
 },
 "C69": {
  "note": "end to end from the HDUs to data[key] on the object's life cycle of C34; four refutations"
 },
 "C70": {
  "note": "decoding is the identity (ASCII or ISO-8859-1); fmt=pvl is not modelled; one refutation"
 },
 "C71": {
  "note": "pillow's decoding is trusted; end to end on the object's life cycle of C34; one refutation"
 },
 "C72": {
  "note": "arrays with a subobject (COLLECTION, ELEMENT, ARRAY) are not modelled; seven refutations"
 },
 "C73": {
  "note": "special sample types, bit columns and nested arrays are not modelled here; byte-string columns with factors are not modelled (an error in the model)"
 },
 "C74": {
  "note": "the example of C73 (C73_meets) meets its hypotheses too; four refutations or surprises"
 },
 "C75": {
  "note": "check_special_objects is modelled; check_special_fn, check_special_block and check_special_offset are parameters"
 },
 "C76": {
  "note": "names of files with directories in them are modelled (path_of) but the theorems are about bare names; sets of object names and FILE_NAMEs that are sequences are not modelled"
 },
 "C77": {
  "note": "pandas' C tokenizer and type inference are modelled by us from pandas' documented behaviour; its conversions of decimal texts (xstrtod, precise_xstrtod) are parameters. Refuted beside: characters such as 007 become integers, words such as NA become missing."
 },
 "C78": {
  "note": "the columns pandas guesses when nothing is found at the label's positions (detect_colspecs) are a parameter and nothing is proved of that case. Refuted beside: rows with the right number of commas by accident are split there; blank rows are left out."
 },
 "C79": {
  "note": "VAX reals go through another library (a parameter). Refuted beside: IBM reals are read as unsigned integers; four-byte integers of qubes are read eight bytes at a time."
 },
 "C80": {
  "note": "for real images it is proved where no constant customary for the type occurs (C27 refutes that these are masked in single precision). Refuted beside: integers that do not fit wrap around; 8-byte unsigned integers cannot be scaled."
 },
 "C81": {
  "note": "for items of numbers; not for foreign reals. Refuted beside: BYTES without ITEM_BYTES counts as the width of each item, so that nothing is read; ITEMS = 0 counts as 1."
 },
 "C82": {
  "note": "the composition of C03-C06, C09-C11, C13-C16, C33, C72, C73, C75, C76, C79 and C81 in one model of opening and loading. Not for products with special cases in pdr/formats/. Refuted beside: arrays written as text are looked for in the whole file, so that with an attached label they are an error."
 },
 "C83": {
  "note": "each if of checkers.py is transcribed as a rule of a small language of conditions with Python's lazy evaluation and errors; which rules apply is decided by reflection on their conditions. What a handler makes of an object is the result of loading it. What a handler does is not modelled, but for cassini.get_offset. Findings: a FILE_NAME containing STRIP, VISIBL, IMAGE, IR_, TIME, SUN or SOLAR sends any product to cassini.get_offset; a numeric FILE_NAME raises TypeError; a path with CE1-3 and .01 is read as GB18030; a product without INSTRUMENT_NAME matches a rule of JIRAM."
 },
 "C84": {
  "note": "from the tree the XML parser makes to the values; fields and groups with the elements of the PDS4 schema (FIELD_PARTS, GROUP_PARTS: no Packed_Data_Fields); File first in its area, with leaves; file areas that are missing what the reader checks for, bit masks, uniformly sampled fields, FITS files and headers are outside the theorems. Uses C43 (text of elements), C64 (pixels), C66 (DataFrames) and C67 (names)."
 },
 "C85": {
  "note": "Pillow's tables, its parsers of tags and profiles, and ElementTree are parameters. Names of position tags have GPS only in front, or not at all. Two attributes with the same name in different namespaces: the dict has only the last (the statement says so)."
 },
 "C86": {
  "note": "Three parts of the documented behaviour are false of the code and proved so: C86_gap_refuted, C86_nested_array_refuted, C86_nested_records_refuted."
 },
 "C87": {
  "note": "Powers of floats, log10 and division of the logarithms are parameters of the theorems. The place of these fields in the table is not modelled (Model/Pds4Product.v refuses tables that have some)."
 },
 "C88": {
  "note": "Modelled are 20 of the targets of check_special_block; those that only hand out a block of another name, or make a new one, and mgs.mola_pedr_special_block and galileo.ssi_prefix_block are not. For a block that is shared with another object, or absent, nothing is said."
 },
 "C89": {
  "note": "Model/SpecialPosition.v transcribes 11 position and 10 offset handlers behind the checkers of Model/Checkers.v and the generic queries of Model/Position.v. Two refuted theorems: the header of a Huygens file of lines (RECORD_TYPE STREAM, no RECORD_BYTES) is asked for as that many lines as it has bytes, which fails; an object of coiss_1006 in the first record is looked for before the start of the file. Clementine's pointers written as text are split as the code's regular expression does."
 }
}