{"id": "C01", "title": "PVL block structure is preserved", "statement": "Parsing a well-bracketed sequence of PVL statements yields exactly the nested mapping the text denotes: every assignment appears once, with its value, in document order, directly inside the block that encloses it in the label; every block appears under its own name; and the flat parameter list returned beside the mapping has exactly the mapping's keys (at all levels, with multiplicity).", "quantifier": "every finite sequence of statements whose OBJECT/GROUP ... END brackets balance, any nesting depth, any names and values", "why_tests_cant": "nesting depth, repetition and ordering are unbounded; sample labels only exercise a few shapes", "anchors": ["pdr/parselabel/pds3.py: BlockParser.parse_statements, _step_in, _step_out, add_statement"]}
{"id": "C02", "title": "PVL parsing never crashes on malformed bracketing and says what it drops", "statement": "For any statement sequence at all, parsing the blocks does not raise. Surplus END statements at top level are ignored. If blocks are left open, the returned mapping holds exactly the top-level statements completed before the first block that is never closed, and the parameter list still lists every assignment seen.", "quantifier": "every finite sequence of statements, balanced or not", "why_tests_cant": "malformed labels form an unbounded space", "anchors": ["pdr/parselabel/pds3.py: BlockParser.parse_statements"]}
{"id": "C03", "title": "Label text round-trips to its statements", "statement": "If a label is written one assignment per line as KEY = VALUE (upper-case keys, values without '=' or comments), with optional continuation lines, then cutting the text into statements gives back exactly those keys and values in order; nothing is merged, dropped or split.", "quantifier": "every list of assignments, every key/value text in the stated alphabet, any number of continuation lines", "why_tests_cant": "the splitting rule looks at every line; only a proof covers every text", "anchors": ["pdr/parselabel/pds3.py: chunk_statements, is_an_assignment_line, extract_pvl_block_terminal, parse_pvl"]}
{"id": "C04", "title": "Comments do not change a label's meaning", "statement": "Removing PVL comments leaves all text outside comments unchanged: a label without '/*' is returned untouched, and a comment running from '/*' to the end of its line is replaced by that line's end only, so every other line is parsed as if the comment had not been written.", "quantifier": "every label text", "why_tests_cant": "comment positions and contents are arbitrary", "anchors": ["pdr/parselabel/pds3.py: parse_pvl (comment regex)"]}
{"id": "C05", "title": "Non-decimal PVL integers mean what they say", "statement": "A value written as base#digits# is read as that integer, for every base 2-36 Python accepts, in upper or lower case digits, alone or inside a (..) or {..} list with blanks around its items; every natural number can be written and read back this way. In full, what stands between the # signs is read as an integer exactly when it is an optionally signed numeral of that base with single underscores allowed between digits; anything else stays text.", "quantifier": "every base, every natural number, every list of them", "why_tests_cant": "infinitely many numerals; boundary digits per base", "anchors": ["pdr/parselabel/pds3.py: parse_non_base_10, parse_non_base_10_collection, parse_unusual_collection, literalize_pvl"]}
{"id": "C06", "title": "Interpreting values never changes the label's shape", "statement": "Turning the string values of a parsed label into Python values changes values only: the keys, their order, their multiplicity and the nesting of the result are those of the input, and each result value is the interpretation of the string at the same place.", "quantifier": "every nested label mapping", "why_tests_cant": "arbitrary depth/duplicates", "anchors": ["pdr/parselabel/pds3.py: literalize_pvl_block, multidict_dig_and_edit"]}
{"id": "C07", "title": "Duplicate pointers are numbered consistently with their objects", "statement": "When a label has several pointers with one name, the i-th of them (document order) is renamed NAME_i, the i-th object block of that name is renamed likewise, and no other key, value or ordering in the label changes; labels without duplicate pointers are unchanged; the parameter list stays in step with the mapping.", "quantifier": "every label mapping and every duplication pattern", "why_tests_cant": "the combination of duplicates and nesting is unbounded", "anchors": ["pdr/parselabel/pds3.py: index_duplicate_pointers, set_key_index, get_pds3_pointers"]}
{"id": "C08", "title": "Pointer names and object names convert both ways", "statement": "Stripping and adding the pointer caret are mutually inverse on object names and pointer names and are idempotent.", "quantifier": "every string that does not itself start with two carets", "why_tests_cant": "all strings", "anchors": ["pdr/parselabel/pds3.py: pointerize, depointerize"]}
{"id": "C09", "title": "Label trimming keeps the whole label and nothing after it", "statement": "When a label is embedded at the start of a data file, the trimmed text is a prefix of the file. If the first END marker after the 20-byte head lies inside one read and no earlier read holds any label ending, the text ends exactly with that marker, for every read size; if no ending occurs within the size limit, the text is everything read (or an error if requested). A binary head is rejected in strict mode.", "quantifier": "every file content, every END position, every size limit", "why_tests_cant": "END can fall at any byte, including across a read boundary", "anchors": ["pdr/parselabel/utils.py: trim_label, _scan_to_end_of_label"]}
{"id": "C10", "title": "metaget returns the first value of a key, or the default", "statement": "Looking up a metadata key gives the value of the first occurrence of that key in the label (searching the whole tree), and gives the caller's default when the key is absent or its value is None; for hashable defaults it never raises, it never changes the metadata, and it warns exactly when the label names the key more than once.", "quantifier": "every label tree, key and default", "why_tests_cant": "arbitrary trees", "anchors": ["pdr/pdr.py: Metadata.metaget, _metaget_factory"]}
{"id": "C11", "title": "metablock returns the named block", "statement": "Asking for a block by name gives the first entry with that name when that entry is a block, and None when the label has no such name.", "quantifier": "every label tree and name", "why_tests_cant": "arbitrary trees", "anchors": ["pdr/pdr.py: Metadata.metablock, _metablock_factory"]}
{"id": "C12", "title": "The metadata cache is transparent until the label is edited", "statement": "In any history of lookups, edits and refreshes, each lookup answers as a freshly built object would for one of the versions the label has had since the last refresh; so without edits the cache is unnoticeable, and after refresh_cache all later answers are those of the current label.", "quantifier": "every sequence of metaget/metablock/edit/refresh operations", "why_tests_cant": "histories are unbounded", "anchors": ["pdr/pdr.py: Metadata.metaget, metablock, refresh_cache"]}
{"id": "C13", "title": "Files are found regardless of letter case or compression", "statement": "Asking for a file under one of several names returns the first name's file if it exists; otherwise a file in the same directory whose name differs only in letter case or by an added compression suffix; FileNotFoundError is raised exactly when no name has such a file. For directories without names beginning or ending with a dot it never returns anything else.", "quantifier": "every directory listing and requested name", "why_tests_cant": "directory contents are arbitrary", "anchors": ["pdr/utils.py: check_cases, stem_path"]}
{"id": "C14", "title": "Label files are associated by stem only", "statement": "The label that goes with a product is the label given by name, or the product itself if it has a label extension, or else the first of x.xml, x.lbl, x.lblx (any letter case, or compressed) in the product's directory, x being the product's name up to its last dot; None exactly when there is none.", "quantifier": "every directory listing and product name", "why_tests_cant": "directory contents are arbitrary", "anchors": ["pdr/utils.py: associate_label_file, stem_path"]}
{"id": "C15", "title": "A pointer names the right byte", "statement": "The start byte computed from a label pointer is the zero-based byte the PDS3 standard means: record n starts at (n-1)*RECORD_BYTES, byte n <BYTES> at n-1, a bare file name at 0; ill-formed targets raise instead of yielding a wrong offset, and the offset is never negative.", "quantifier": "every pointer form and every number", "why_tests_cant": "unbounded numbers and forms", "anchors": ["pdr/loaders/_helpers.py: quantity_start_byte", "pdr/loaders/queries.py: data_start_byte"]}
{"id": "C16", "title": "Table extent", "statement": "The (start, length) computed for a table is the one its label gives: BYTES, or else RECORDS (or ROWS) times the record size (RECORD_BYTES, or ROW_BYTES plus ROW_SUFFIX_BYTES, or the product's), from its pointer, left open when the label does not say; the text read is exactly those bytes, or for stream tables exactly those lines.", "quantifier": "every combination of label values, every file", "why_tests_cant": "unbounded numbers and missing-field combinations", "anchors": ["pdr/loaders/queries.py: table_position, _table_length, _table_row_position", "pdr/utils.py: head_file", "pdr/loaders/table.py: _interpret_as_ascii"]}
{"id": "C17", "title": "Sample types decode the right width and byte order", "statement": "For every PDS3 integer type name and a size of 1, 2, 4 or 8 bytes, the chosen machine type has exactly that size, the named byte order and signedness; reals of 4 and 8 bytes likewise; text and bit-string names give byte fields of exactly the stated width; reals of other widths and unknown names raise.", "quantifier": "every documented type name, every byte size", "why_tests_cant": "names x sizes x modes; sizes unbounded", "anchors": ["pdr/datatypes.py: sample_types, integer_code"]}
{"id": "C18", "title": "Built-in special constants are the documented values", "statement": "The built-in missing-data constants are representable in the sample type they are listed under, and the ISIS single-precision ones are the documented bit patterns.", "quantifier": "every listed type and constant", "why_tests_cant": "hand-typed tables", "anchors": ["pdr/datatypes.py: IMPLICIT_PDS3_CONSTANTS"]}
{"id": "C19", "title": "Bit columns expand to the bits of their bytes", "statement": "Expanding a byte column to a bit string gives, for big-endian columns, the concatenation of the 8-bit expansions of the bytes, and for little-endian ones of 1, 2, 4 or 8 bytes the binary expansion of the little-endian integer; the length is always 8 times the byte count.", "quantifier": "every column width, every byte content, every row", "why_tests_cant": "256^n contents, any n", "anchors": ["pdr/bit_handling.py: convert_byte_column_to_bits, factor_to_dtype"]}
{"id": "C20", "title": "Bit sub-columns slice the right bits", "statement": "A bit column with START_BIT s and BITS n gives bits s..s+n-1 (one-based) of the expanded string; consecutive definitions that tile the column reproduce the whole string; ITEMS replicate at consecutive offsets; other columns of the table are untouched.", "quantifier": "every layout of bit columns, every table", "why_tests_cant": "arbitrary layouts", "anchors": ["pdr/bit_handling.py: split_bits, get_bit_start_and_size, expand_bit_strings, set_bit_string_data_type"]}
{"id": "C21", "title": "Wide columns are cut into machine words without loss", "statement": "Any byte length is cut into 8/4/2/1-byte words whose sizes sum to the length and whose number is minimal.", "quantifier": "every length", "why_tests_cant": "unbounded", "anchors": ["pdr/bit_handling.py: factor_to_dtype"]}
{"id": "C22", "title": "Image pixels land in the right place", "statement": "For each band-storage order (sequential, line-interleaved, sample-interleaved; unknown orders count as sequential) the loaded array's element (band,line,sample) is the sample stored at that order's linear position after the start byte; the shape is (bands,lines,samples), or (lines,samples) for one band. Several bands without a storage order, and files that end before the last sample, raise.", "quantifier": "every band/line/sample count and every content", "why_tests_cant": "arbitrary dimensions", "anchors": ["pdr/loaders/image.py: process_single_band_image, process_multiband_image, read_image"]}
{"id": "C23", "title": "Line prefixes and suffixes are separated from pixels", "statement": "With line prefix/suffix padding of a single-band image, each file line is prefix ++ pixels ++ suffix and the image, prefix and suffix arrays hold exactly these parts in order; the same holds for line-interleaved images that end their file; padding that is not whole samples, or on other multi-band images, raises.", "quantifier": "every padding width and image size", "why_tests_cant": "arbitrary dimensions", "anchors": ["pdr/loaders/image.py: process_single_band_image, process_multiband_image, extract_single_band_linefix, extract_multi_band_linefix"]}
{"id": "C24", "title": "Qube side- and back-planes are separated from the core", "statement": "A qube padded along one axis loads as its (bands,lines,samples) core, each sample from the right place of the padded file, and the prefix and suffix planes split off hold exactly the remaining samples; padding along two axes raises.", "quantifier": "every core/suffix size", "why_tests_cant": "arbitrary dimensions", "anchors": ["pdr/loaders/image.py: extract_axplanes"]}
{"id": "C25", "title": "Table columns are cut at the right bytes", "statement": "For a fixed-width table of columns and containers of columns whose first part is a column, whose containers each begin where the preceding (unrepeated) part ends, and whose multi-item columns are listed in row order: each column starts at its START_BYTE (plus the row prefix), item i of a multi-item column at i item offsets further, each column of the r-th repetition of a container at the container's start plus r times the container's BYTES plus its own START_BYTE; and if the last column ends last and is not split into items (no row prefix), the row read is exactly ROW_BYTES plus ROW_SUFFIX_BYTES long. Then every cell of every row of a binary table holds exactly those bytes of its row, and of a file that ends early the complete rows are read.", "quantifier": "every column layout of that kind, label, row size and prefix", "why_tests_cant": "arbitrary layouts", "anchors": ["pdr/pd_utils.py: compute_offsets, _apply_item_offsets, fmtdef_to_dtype", "pdr/loaders/queries.py: parse_table_structure, read_format_block"]}
{"id": "C26", "title": "Duplicate column names become unique", "statement": "Renaming duplicate column names keeps the number and order of the columns, keeps names that occur once, gives the k-th occurrence of a repeated name the suffix _k, and yields pairwise distinct names if no name already ends in an underscore and a number.", "quantifier": "every list of names", "why_tests_cant": "arbitrary duplication patterns", "anchors": ["pdr/pd_utils.py: reindex_df_values"]}
{"id": "C27", "title": "Special constants are found and masked exactly", "statement": "The constants found for an image are those its label block gives under a PDS3 constant name, those customary for its element type that occur in it (never for uint8), and NaN if something is not finite. Masking hides exactly the elements equal to one of the constants, and non-finite elements when NaN is one of them; nothing else changes, and scaling by numbers keeps the mask. (Constants that are not doubles, such as 1e32 in single precision, are not covered: see the refutation.)", "quantifier": "every array, label block and constant set", "why_tests_cant": "arbitrary arrays and labels", "anchors": ["pdr/_scaling.py: mask_specials, find_special_constants", "pdr/pdr.py: Data.get_scaled"]}
{"id": "C28", "title": "Scaling computes value*scale+offset", "statement": "Scaling an image with the label's factors gives x*SCALING_FACTOR+OFFSET for each unmasked sample: exactly for integers whose results fit the type of the array, and with each step correctly rounded for floats; missing, NULL/N/A/blank and unit-carrying factors are treated as documented; one factor per plane of a 3-D image scales the planes; with factor 1 and offset 0 the array is unchanged.", "quantifier": "every array and label factors", "why_tests_cant": "arbitrary arrays and label forms", "anchors": ["pdr/_scaling.py: scale_array, _copy_scale, overflow_wrap", "pdr/np_utils.py: casting_to_float"]}
{"id": "C29", "title": "In-place scaling equals out-of-place scaling", "statement": "Requesting in-place scaling gives the same result as ordinary scaling, when integers become floats and when there is one factor per plane; with single numbers on arrays that keep their type it raises TypeError instead (refuted).", "quantifier": "every array and factor", "why_tests_cant": "arbitrary arrays", "anchors": ["pdr/_scaling.py: _inplace_scale, overflow_wrap, scale_array"]}
{"id": "C30", "title": "The chosen integer type can hold the scaled data", "statement": "When integer data are refitted for a non-negative integer factor and an integer offset, the chosen type can represent every scaled value and no integer type with fewer bytes can; a type is chosen whenever one exists.", "quantifier": "every integer array, factor and offset", "why_tests_cant": "arbitrary numbers", "anchors": ["pdr/_scaling.py: fit_to_scale"]}
{"id": "C31", "title": "Query resolution runs what is needed, once, in order", "statement": "Calling a loader supplies every required argument - the caller's value if given, otherwise the answer of the query of that name; exactly the queries needed for this are called, once each, in the declared order, each with the arguments it accepts among those already known; TypeError is raised before any query runs if a required argument is neither given nor queryable.", "quantifier": "every signature, keyword set and query table", "why_tests_cant": "arbitrary call graphs", "anchors": ["pdr/func.py: softquery, call_kwargfiltered, filterkwargs"]}
{"id": "C32", "title": "Special-case hooks preempt only when they say so", "statement": "A special-case check changes a function's answer exactly when it reports that the case is special; otherwise the generic function's answer is returned unchanged.", "quantifier": "every checker/function pair", "why_tests_cant": "arbitrary functions", "anchors": ["pdr/func.py: specialize"]}
{"id": "C33", "title": "Loader choice is a function of the pointer's name", "statement": "An object (whose name has no dot) goes to the loader of the first rule, in a fixed written list of name, file-extension and data-set rules, whose condition holds; every object gets exactly one. Numbering a repeated object (TABLE -> TABLE_12) does not change its loader. The names load_all leaves alone are exactly those beginning DATA_SET_MAP_PROJECT, ending _DESC, or ending DESCRIPTION with an optional number. (Refuted: FILE_NAME objects are not loaded by their file's extension.)", "quantifier": "every object name without a dot, every file name, data-set id and behaviour of the special cases", "why_tests_cant": "arbitrary names", "anchors": ["pdr/loaders/dispatch.py: pointer_to_loader, image_lib_dispatch, special_pointer_dispatch, file_extension_to_loader, OBJECTS_IGNORED_BY_DEFAULT", "pdr/loaders/utility.py: is_trivial, looks_like_this_kind_of_file"]}
{"id": "C34", "title": "Data object life cycle", "statement": "Over any sequence of load / load('all') / attribute or item accesses / purging browse dumps: a name not in keys() raises KeyError from load and AttributeError from access, changing nothing; a loaded object raises AlreadyLoadedError from load unless reload is requested, and is given by access without calling a loader; a load makes exactly one loading attempt, sets the object to what the loader provides and the objects that come with it to theirs, and changes nothing else; the key list only grows at its end, never repeats a name, and gains only names of objects that came with others; a loaded object keeps its value until reloaded or purged (unless a loader brings along an object already loaded, which replaces it); unloaded() is exactly the keys without a value.", "quantifier": "every operation history, every loader behaviour (which may depend on everything that happened before)", "why_tests_cant": "histories are unbounded", "anchors": ["pdr/pdr.py: Data.load, _add_loaded_objects, load_all, __getitem__, __getattr__"]}
{"id": "C35", "title": "Every listed key can be accessed", "statement": "For every name in keys() whose loading attempt provides a value (loaded data, or a non-None metadata fallback when loading failed), access gives that value, and gives it again later without another attempt. Not so when the loader provides nothing (AttributeError, a new attempt each time), or when the name is also that of an attribute or method of the Data object (the attribute is given instead).", "quantifier": "every product, state and loader outcome", "why_tests_cant": "loader failures are unbounded", "anchors": ["pdr/pdr.py: Data.__getattribute__, __getitem__, load, load_from_pointer"]}
{"id": "C36", "title": "load_all terminates and leaves nothing loadable unloaded", "statement": "load('all') terminates if no object is called 'all' (with one it recurses for ever), attempts once each only listed, not-ignored, not yet loaded names, keeps everything loaded, and if no exception escapes leaves every key loaded, ignored by default, or attempted; if every attempt provides a value nothing but ignored names stays unloaded; an escaping exception is the last attempt's.", "quantifier": "every product, every loader outcome, including loaders that add keys while it runs", "why_tests_cant": "loaders can add objects", "anchors": ["pdr/pdr.py: Data.load_all, unloaded"]}
{"id": "C37", "title": "Browse images show brightness in order and on scale", "statement": "For every image without NaN or infinities and every percentile clipping, the limits between which a browse image is scaled are values between the least and greatest unmasked values, exactly those without clipping, and leave out at most the asked percentage (plus one value) at each end. The limits are shown as 0 and 255, everything between within 1/2 (+1/4096) of the linear shade, everything outside as the limit; brighter values are never shown darker; 8- and 16-bit integers always meet the conditions. Masked elements show the mask colour and have no influence on the rest. Exceptions, proved: integers or floats whose limits are too far apart wrap around; purge multiplies integers first (wrapping around far earlier) and rounds down; default clipping that leaves one value shows values modulo 256.", "quantifier": "every shape, element type, mask, clipping and mask colour", "why_tests_cant": "arbitrary images and percentiles", "anchors": ["pdr/browsify.py: find_masked_bounds, find_unmasked_bounds, normalize_range, eightbit, colorfill_maskedarray, _render_array"]}
{"id": "C38", "title": "Browse images of cubes show the right bands", "statement": "Browsing a three-dimensional array along any axis shows the band asked for (negative numbers count from the end), the middle one when none is asked for or the one asked for does not exist; an RGB image of the first three bands of three- or four-band arrays unless overridden; of the channels asked for, or an IndexError if one does not exist; with burst, every band once and in order. Exceptions, proved: with bands along the last axis the image is shown transposed; no bands is an IndexError.", "quantifier": "every 3-D array, band axis, band number, channel triple and override", "why_tests_cant": "arbitrary numbers of bands and band indices", "anchors": ["pdr/browsify.py: _format_multiband_image, _format_as_single_band, _format_as_rgb"]}
{"id": "C39", "title": "MOC image decompression inverts the instrument's Huffman codes", "statement": "For each of the eight code tables of the MOC flight software: no code word is the beginning of another residual's code word; residuals coded one after the other from any bit of the data on are read back in order (table 7: as the residuals that stand for them), using up exactly the bits of their code words; any bit stream whatever decodes, with zeros after its end, as some residual's code word. A header that names another table is an error.", "quantifier": "every residual sequence, every table, every bit position of every data, every bit stream", "why_tests_cant": "unbounded sequences at every alignment", "anchors": ["pdr/formats/mgs_moc.py: ht_insert, ht_tablefy, ht_tree_gen, make_huffman_tree, next_value, code tables"]}
{"id": "C40", "title": "MOC predictive decoding reconstructs the pixels", "statement": "Loading an MGS MOC file returns the image the instrument compressed, for every image of bytes, coded only or predicted from the left or from above, with any code table, cut into any number of fragments, whatever the label and whatever follows the last fragment, and also when no fragment is marked as the last. Every image can be coded this way. Loading ends for every file; damaged data give rows of the right width or an error; damage inside any group of 128 rows leaves the groups before it and, from the next marker on, the groups after it untouched; the place found after damage is the first marker followed by smooth data. Images predicted from both sides are an error.", "quantifier": "every image, division into fragments, label, trailing bytes; every damaged file", "why_tests_cant": "arbitrary images and damage", "anchors": ["pdr/formats/mgs_moc.py: mgs_moc_comp_image_loader, make_pred_image, pred_decode, pred_line_decompressor, find_sync, delta_ok, decomp_none, decomp_xpred, decomp_ypred, decomp_sync"]}
{"id": "C41", "title": "The MSL camera loader returns the image the camera wrote", "statement": "For every file of the MSL rover's cameras whose 64-byte header tells an 8-bit predicted image, and which holds, for each group of eight rows, the four planes of every second pixel as differences in the camera's code (each plane after its marker, filled up to four bytes), the loader returns exactly those pixels; if only the first n groups are there, those rows are right and the others 0; a file that ends inside a plane, at a multiple of four bytes, is an error; any other such file gives an image of the size the header tells or an error. Every image can be written that way, and the code is unambiguous: each of the 256 differences has exactly one word, no word begins another. Uncompressed images of 8 or 16 bits are returned row by row, with 0 for missing pixels; a thumbnail has the first of 64 sizes that fits the file. JPEG images are what Pillow makes of the bytes from the first JPEG marker on, bands first. A file without header is an error. (Found: a file that ends right after a plane's code, without the filling, hangs for ever; predicted images with 16 bits never load; a marker inside the header is taken for the first plane; a header that does not begin the file makes header bytes pixels; a thumbnail of 10 by 8 is read as 8 by 10.)", "quantifier": "every file: every image, size, filling, gap between planes, cut point and header", "why_tests_cant": "the images, code streams and places to cut are unbounded", "anchors": ["pdr/formats/msl_edr.py: read_header, decode_dat_header, read_raw_image, read_jpeg_image, next_value, find_sync, decode_x, pdecom, msl_edr_image_loader"]}
{"id": "C42", "title": "Bit readers deliver each bit once, in order", "statement": "The bit reader of the MGS MOC decompressor, asked for numbers of any sizes up to 24 bits, delivers the numbers that stand in the data one after the other, no bit lost, repeated or out of order, as long as the data last; larger numbers, and a first number longer than the data, are refused. The bit reader of the MSL decompressor delivers every bit of the file once, the highest of each byte first, then nothing any more; going back by some bytes starts again at the first bit of the byte so many before. (Found: when the data are used up the MOC reader does not stop: unless their length is a multiple of 3 it starts over from the first byte, again and again.)", "quantifier": "every buffer and every sequence of reads and rewinds", "why_tests_cant": "histories of reads are unbounded", "anchors": ["pdr/formats/mgs_moc.py: read_bits, BitStruct", "pdr/formats/msl_edr.py: next_bit, rewind_bytes"]}
{"id": "C43", "title": "PDS4 labels keep every element", "statement": "The MultiDict made of a PDS4 label has, under every path of element names, exactly the values of the label's elements at that path, in the order of the label, including repeated siblings: the text of an element without children (with white space squeezed if it has one line, unchanged if it has more, None if blank), or a nested MultiDict whose keys are the names of the children, those with the same name together, in the order of first appearance, and the element's own text under _text. Names have the prefix PDS expects for its own namespaces and the label's prefix for others. Where siblings of the same name stand together, the order is that of the label. Any nested mapping is unpacked in full depth. (Found: if they do not stand together the order among different names is lost; attributes such as units, and text after an element, are dropped; an element called _text is overwritten by text; namespaces that begin like that of PDS lose their prefix, and namespaces with the same prefix are merged.)", "quantifier": "every label tree, namespace declaration, text and path", "why_tests_cant": "arbitrary trees and texts", "anchors": ["pdr/parselabel/pds4.py: unpack_to_multidict, reformat_pds4_tools_label", "pdr/pds4_tools/reader/read_label.py: read_label, _non_blank_line_count, _normalize", "pdr/pds4_tools/utils/helpers.py: xml_to_dict", "pdr/pds4_tools/reader/label_objects.py: Label.to_dict"]}
{"id": "C44", "title": "Delimited PDS4 tables: every field gets the text of its column", "statement": "Reading a delimited PDS4 table whose fields are in no group gives, for every field and every record, exactly the text between the unquoted delimiters (without its quotes when it is quoted, also when it contains delimiters), for every number of fields and records, wherever the table is in the file and whatever follows it. (Found: a record with one column too many gives the last field both columns; with two too many reading fails with IndexError; in a record with missing columns the last field present gets a part of its text that depends on uninitialised memory; a table with fewer records than the label says fails with IndexError; one without records fails with ValueError.)", "quantifier": "every list of fields, delimiter, record text, quoting, and content of uninitialised memory", "why_tests_cant": "arbitrary texts, arbitrary geometry, and uninitialised memory", "anchors": ["pdr/pds4_tools/reader/read_tables.py: _read_table_byte_data, _get_delimited_records_and_start_bytes, _extract_delimited_field_data, read_table_data", "pdr/pds4_tools/reader/core.py: read_byte_data"]}
{"id": "C45", "title": "Fixed-width PDS4 fields are cut at the right bytes", "statement": "Reading a Table_Character or Table_Binary gives, for every field, record by record and repetition by repetition of the groups it is in (nested to any depth), exactly the bytes at the place the label says: offset of the table, record number times record length, and for each group its location and the repetition times the length of one repetition; this holds also where the reader takes its shortcut for adjacent values. The table is refused exactly when some group has no repetitions or a length that is not a multiple of them. (Found: 0 repetitions give ZeroDivisionError; a file that ends before the table is not refused, the values are empty.)", "quantifier": "every tree of fields and groups, record length, number of records, offset and file", "why_tests_cant": "arbitrary nesting and geometry", "anchors": ["pdr/pds4_tools/reader/read_tables.py: _read_table_byte_data, _extract_fixed_width_field_data, read_table_data", "pdr/pds4_tools/reader/table_objects.py: TableManifest (from_label, get_parents_by_idx, _validate_table)", "pdr/pds4_tools/reader/core.py: read_byte_data"]}
{"id": "C46", "title": "PDS4 integer type selection holds the data", "statement": "The integer type chosen for a list of integers, or for an array, represents every one of them, so that casting to it changes no value; for a list it is never wider than needed unless the narrower type would have to hold its own lowest number; a type is chosen unless there are no numbers. (Found: the lowest number of a type is given the next wider type, the lowest 64-bit integer a Python object; for an array that holds the lowest number of its own type the absolute value overflows, and the type chosen can be too small for it.)", "quantifier": "every list of integers and every array of integers", "why_tests_cant": "arbitrary integers", "anchors": ["pdr/pds4_tools/reader/data_types.py: get_min_integer_numpy_type"]}
{"id": "C47", "title": "PDS4 scaling is exact for integers and double precision for floats", "statement": "get_scaled of a PDS4 array of integers with integer scaling_factor and value_offset, when it succeeds, gives exactly value * scaling_factor + value_offset for every element that is neither masked nor a special constant, in a type that holds it; with floats it gives doubles, each the product and sum rounded to double precision. It succeeds whenever a negative number occurs before or after scaling, or the largest number calls for a signed type, and always when floats are involved and the factors are not too large. (Found: with data whose largest value calls for an unsigned type, such as 200, and a factor that numpy keeps in a signed type, such as 2, get_scaled fails with TypeError; also a value_offset of 2**63 or more fails with TypeError when the data has negative numbers, even if every sum fits.)", "quantifier": "every array, shape, mask, factor, offset and table of special constants", "why_tests_cant": "arbitrary numbers and machine arithmetic at every width", "anchors": ["pdr/pds4_tools/reader/data_types.py: get_scaled_numpy_type, adjust_array_data_type, apply_scaling_and_value_offset", "pdr/_scaling.py: scale_pds4_tools_struct", "pdr/pdr.py: Data.get_scaled"]}
{"id": "C48", "title": "PDS4 special constants are masked exactly", "statement": "Exactly the values equal to a declared special constant are masked; valid_minimum and valid_maximum mask nothing. (Found: a constant written with a decimal point masks no element of an integer array; a constant that is no number of the array's type makes get_scaled fail with TypeError; without a scaling factor or an offset nothing is masked.)", "quantifier": "every array and table of constants", "why_tests_cant": "arbitrary arrays and constants", "anchors": ["pdr/pds4_tools/reader/data_types.py: mask_special_constants, apply_scaling_and_value_offset"]}
{"id": "C49", "title": "Line-ending canonicalization", "statement": "Canonicalizing line endings turns every CR LF and lone CR into LF, leaves text with only LF unchanged, is idempotent, never leaves a CR, and keeps the lines and their number; it works elementwise on lists and leaves other values alone.", "quantifier": "every text and value", "why_tests_cant": "arbitrary texts", "anchors": ["pdr/loaders/_helpers.py: canonicalize_line_endings"]}
{"id": "C50", "title": "Delimiter detection", "statement": "A table is treated as a stream of lines exactly when neither its pointer nor its block is in bytes, the product gives no record size, the record type is STREAM and the name says ASCII, SPREADSHEET or HEADER; the field separator named in the label is the one used, comma when none is named, and an unknown name raises.", "quantifier": "every label", "why_tests_cant": "arbitrary labels", "anchors": ["pdr/loaders/_helpers.py: _check_delimiter_stream, check_explicit_delimiter"]}
{"id": "C51", "title": "Format files are spliced in place", "statement": "Including external format files gives the column list that results from replacing each STRUCTURE pointer by the file's columns at that position, recursively, leaving all other items in order; a missing file raises.", "quantifier": "every label block and set of format files", "why_tests_cant": "arbitrary nesting", "anchors": ["pdr/loaders/queries.py: inject_format_files, read_format_block"]}
{"id": "C52", "title": "Repeated definitions expand to consecutive copies", "statement": "Appending an object k times adds exactly max(1,k) consecutive copies of it (of its elements, if it is a sequence) after what was there, and changes nothing else.", "quantifier": "every definition list", "why_tests_cant": "arbitrary definitions", "anchors": ["pdr/utils.py: append_repeated_object"]}
{"id": "C53", "title": "IBM hexadecimal floats convert exactly", "statement": "Converting a 32-bit IBM float to IEEE double gives exactly (-1)^s * m/2^24 * 16^(e-64) for every bit pattern, and a 64-bit one whose fraction fits 53 bits likewise, in any rounding mode; a table column is cast to single precision only when that keeps every value a single can hold.", "quantifier": "all 2^32 and 2^64 bit patterns, every rounding", "why_tests_cant": "2^32 patterns; exactness is an arithmetic fact", "anchors": ["pdr/np_utils.py: ibm_to_np, ibm32_to_np_f32, ibm64_to_np_f64", "pdr/pd_utils.py: convert_ibm_reals"]}
{"id": "C54", "title": "Keyword filtering passes exactly the accepted arguments", "statement": "Keyword filtering calls a function with exactly those given keywords that it accepts, unchanged.", "quantifier": "every keyword set and signature", "why_tests_cant": "arbitrary functions", "anchors": ["pdr/func.py: filterkwargs, call_kwargfiltered"]}
{"id": "C55", "title": "Quantities keep their number and their units", "statement": "A value written 'number <UNITS>', alone or as an item of a (..) list beside other values, is read as a mapping with that number's interpretation as value and the units text's interpretation as units; the other items of the list are interpreted as they would be on their own. The number may have an exponent or be one of the words NULL, UNK, N/A. A list of unquoted words is those words, in order, without surrounding blanks.", "quantifier": "all numbers, units texts, list lengths and positions", "why_tests_cant": "unboundedly many item combinations and unit texts", "anchors": ["pdr/parselabel/pds3.py:parse_pvl_quantity_statement", "pdr/parselabel/pds3.py:parse_pvl_quantity_object", "pdr/parselabel/pds3.py:literalize_pvl"]}
{"id": "C56", "title": "Reading a whole PVL label", "statement": "Reading a comment-free label written one statement per line gives the nested mapping the label denotes, with every string value replaced in place by its interpretation, duplicate pointers and their blocks numbered, and a parameter list that matches the mapping's keys; it does not raise.", "quantifier": "all well-formed labels of any size and nesting depth", "why_tests_cant": "composition over all labels; unbounded nesting", "anchors": ["pdr/parselabel/pds3.py:parse_pvl"]}
{"id": "C57", "title": "Compressed files are opened with the decompressor their suffix calls for", "statement": "Opening a file chooses gzip, bzip2, zip or plain reading by its last suffix in any letter case; in particular any compressed file accepted in place of a requested plain one is opened decompressed; FITS files are recognised by extension whatever their case.", "quantifier": "every file name", "why_tests_cant": "arbitrary names", "anchors": ["pdr/utils.py: decompress, check_cases, check_primary_fmt"]}
{"id": "C58", "title": "The root of a data set is the directory holding the last 'data' directory", "statement": "The repository root of a path is the part before its last component called data (in any letter case); IndexError when there is none.", "quantifier": "every path", "why_tests_cant": "arbitrary paths", "anchors": ["pdr/utils.py: find_repository_root"]}
{"id": "C59", "title": "The signature of a special-cased function is legal and complete", "statement": "Combining the parameters of a function and its special-case check yields each name once, keeping an annotated version if there is one, kinds in legal order and required parameters before optional ones within a kind; TypeError exactly when two versions of a name have different annotations.", "quantifier": "every set of parameters and every order in which the set yields them", "why_tests_cant": "set iteration order varies from run to run", "anchors": ["pdr/func.py: sig_union, paramsort"]}
{"id": "C60", "title": "MOC transform-compressed images decode to the coefficients that were sent", "statement": "Loading an MGS MOC file of fragments compressed with the cosine transform returns, one below the other, the pictures of the fragments: each pixel is the inverse transform of the coefficients coded for its own 16 x 16 block, limited to 0..255. Every coefficient of 16 bits has a code in each of the eight tables and is read back; no code word begins another; means are interpolated exactly; each of the 256 coefficients is used once; every collection of blocks can be coded. Whatever the header and data, a fragment gives a picture of the size in the header with pixels 0..255 or ValueError, and loading ends. (Found: a fragment coded with another transform gives a black picture, not an error.)", "quantifier": "every inverse transform, collection of blocks and groups, spacing, division into fragments; every damaged fragment", "why_tests_cant": "arbitrary images and damage", "anchors": ["pdr/formats/mgs_moc.py: decompress_transform_image, TransformDecompressor, read_bits, make_tree, init_block, read_coef, reorder, read_block"]}
{"id": "C61", "title": "get_scaled of a PDS4 array and the loaded array", "statement": "get_scaled returns a scaled copy: the loaded array keeps its values when there is no scaling, when integers are scaled to values that do not fit their type, and when integers or single floats are scaled to doubles. (Found: signed integers with a negative one among them whose scaled values fit, and all doubles, are overwritten with the scaled values, so that a second get_scaled scales again; a get_scaled that fails with TypeError can leave the loaded array multiplied.)", "quantifier": "every array, factor, offset and table of special constants", "why_tests_cant": "aliasing shows only in histories of several calls, for arbitrary values", "anchors": ["pdr/pdr.py: Data.get_scaled, Data._load_pds4", "pdr/_scaling.py: scale_pds4_tools_struct", "pdr/pds4_tools/reader/data_types.py: apply_scaling_and_value_offset, adjust_array_data_type"]}
{"id": "C62", "title": "PDS4 bit masks keep exactly the masked bits", "statement": "Loading an integer PDS4 array with a bit_mask keeps in every element exactly the bits where the mask has a one, and leaves special constants as they are. (Found: when special constants are declared and none of them occurs, loading fails with numpy 2.1 or later and masks only the first element with older ones; when none of the declared constants is an integer, loading fails; a mask of signed integers that keeps the sign bit and drops another fails with OverflowError.)", "quantifier": "every array, mask and table of special constants", "why_tests_cant": "arbitrary data and masks", "anchors": ["pdr/pds4_tools/reader/read_arrays.py: _apply_bitmask, new_array"]}
{"id": "C63", "title": "Groups in delimited PDS4 tables: every field gets its columns", "statement": "Reading a delimited PDS4 table with groups of fields, nested to any depth, gives every field the texts of exactly its columns, in order, when a group is written repetition after repetition, provided that the number of the last column of a field in a group is not the largest of its integer type (127, 255, 32767, ...) and, for the field of the first column, calls for a signed type. (Found: a group of 128 columns loses the last value of every record; one of 256 columns loses the last character of it; a table that starts with a group of 129 to 254 repetitions cannot be read: IndexError; in a table with Uniformly_Sampled fields, which have no columns, every field gets a column too far to the right.)", "quantifier": "every tree of fields and groups and every list of records", "why_tests_cant": "arbitrary nesting; failures only at particular sizes of integer types", "anchors": ["pdr/pds4_tools/reader/table_objects.py: TableManifest (get_field_offset, get_field_skip_factors, get_children_by_idx, get_parents_by_idx)", "pdr/pds4_tools/reader/read_tables.py: _extract_delimited_field_data, _get_delimited_records_and_start_bytes"]}
{"id": "C64", "title": "PDS4 arrays hold the numbers the file holds", "statement": "The array read from a PDS4 file has the shape the axes of its label give, in the order of their sequence numbers and whatever order the label lists them in, and element number k of it (in storage order) is the number, of the type the label names, that the bytes at offset + k * size hold: integers with and without sign and IEEE floating-point numbers of either byte order, complex numbers; with a bit mask, the bits of it that the mask keeps. A file that ends too early is an error for arrays of several axes. (Found: an array of one axis is silently shorter than its label says.)", "quantifier": "every numeric PDS4 type, number and order of axes, offset, bit mask and file contents", "why_tests_cant": "unboundedly many shapes and contents; every bit pattern of every type", "anchors": ["pdr/pds4_tools/reader/data_types.py: PDS_NUMERIC_TYPES, pds_to_numpy_type, data_type_convert_array, apply_bitmask", "pdr/pds4_tools/reader/read_arrays.py: _read_array_byte_data, new_array, read_array_data", "pdr/pds4_tools/reader/array_objects.py: Meta_ArrayStructure.dimensions, get_axis_arrays"]}
{"id": "C65", "title": "PDS4 fields hold the numbers their texts and bytes say", "statement": "Every value of a field of a PDS4 table is the one its text or bytes say: decimal integers of 64 bits (with or without sign, OverflowError beyond), binary, octal and hexadecimal integers of any size, the double nearest to a decimal real number (underscores allowed between digits), infinities and not-a-number, truth values; a missing value (only white space) is masked where that is allowed and ValueError elsewhere, as is any other text; binary fields hold the numbers their bytes hold; text is kept but for zero bytes at its end.", "quantifier": "every column of texts or bytes", "why_tests_cant": "all texts, of any length", "anchors": ["pdr/pds4_tools/reader/data_types.py: data_type_convert_table_ascii, data_type_convert_table_binary, get_min_integer_numpy_type"]}
{"id": "C66", "title": "The DataFrame of a PDS4 table shows what its file says", "statement": "The DataFrame read from a character, binary or delimited PDS4 table has, for each field of the label in order, one column, or one for each repetition if the field is in groups (at most two of them nested), each with one cell for each record, and the cell is what the text or bytes of that value in the file say. Numbers left out in a delimited table become NaN in fields in groups and in fields without a neighbour outside groups, and so do the special constants of the label if any number is left out. (Found: in two or more neighbouring fields outside groups a number left out is shown as 0, as if the file said 0; whether special constants become NaN depends on whether any value of the table is missing, and then a constant outside the range of its field makes the table unreadable; groups nested three deep are an error.)", "quantifier": "every tree of fields and groups, every type of fields, number of records and file contents", "why_tests_cant": "unboundedly many layouts, records and texts; depends on which fields are neighbours", "anchors": ["pdr/pds4_tools/reader/read_tables.py: new_table, read_table_data", "pdr/pd_utils.py: structured_array_to_df, rectified_rec_df", "pdr/np_utils.py: enforce_order_and_object, np_from_buffered_io", "pdr/pdr.py: Data._load_pds4", "pdr/pds4_tools/reader/data_types.py: mask_special_constants"]}
{"id": "C67", "title": "Names of PDS4 columns and objects", "statement": "A column of a PDS4 table is called after the groups of its field and the field itself, with numbers for siblings of one name and for repetitions; no two fields or columns of a table get one name if the label's names have no comma, bracket or colon and groups have names; groups without name leave no trace. Every structure of a label is an object of the product under its local identifier, its name or else its kind and number, all listed in the index and reachable if these are different. (Found: fields of one name in two groups without name give two columns of one name; names with commas or colons can make a table unreadable; of structures whose names differ only by space and underscore all but the last cannot be reached, nor one called label.)", "quantifier": "every tree of fields and groups, all names, every list of structures", "why_tests_cant": "all trees and all names", "anchors": ["pdr/pds4_tools/reader/table_objects.py: TableManifest._create_group_names, _create_full_locations, _get_overlapping_item_idxs, Meta_Field.full_name", "pdr/pds4_tools/reader/data_types.py: pds_to_numpy_name", "pdr/pdr.py: Data._init_pds4, Data._load_pds4", "pdr/pds4_tools/reader/general_objects.py: Structure.id"]}
{"id": "C68", "title": "Parts of FITS files are found where labels say", "statement": "A label of a product with FITS files points to a part of a file by byte or by record (PDS3, counted from 1) or by offset (PDS4). What is loaded is the header of the HDU whose header begins there, with every card that can be read (mended if need be) in order, or the data of the HDU whose data begin there together with that header; a byte where nothing begins is an error. In PDS4 the header of an array or table is called by the name the label gives to the header object that ends where the data begin. (Found: the data of an HDU without data that another one follows are the header of the next HDU; a pointer that is only a file name never finds data; a record pointer with its unit written out is taken one record too far; record 2881 can be mistaken for byte 2881; in PDS4 the header is not kept under the local_identifier it is listed by, and a header of another file that ends at the same byte lends its name and is replaced.)", "quantifier": "every sequence of HDUs of any sizes and contents, every pointer and name, every list of PDS4 objects", "why_tests_cant": "unboundedly many layouts of files; coincidences of byte and record numbers", "anchors": ["pdr/loaders/handlers.py: hdu_byte_index, handle_fits_file, handle_fits_header", "pdr/loaders/queries.py: _agnostic_fits_index, get_fits_start_byte", "pdr/loaders/datawrap.py: ReadFits", "pdr/pdr.py: Data._find_fits_header_pds4_id, Data._load_pds4"]}
{"id": "C69", "title": "FITS files opened directly", "statement": "pdr.open of a FITS file lists each HDU once, by its name or, for several HDUs of one name, by name and number; the metadata under a key is what that header says, and accessing a key, whatever was loaded before, gives the data of its HDU, and its header under the key with _HEADER, and changes nothing else. A table has the columns of its fields in order, one for each element of fields that hold several, equal names of binary tables numbered. (Found: keys clash if an HDU is called like another with a number; the data of two HDUs whose name contains HEADER cannot be loaded; a file with one card that needs mending cannot be opened at all; equal names of columns can stay an error.)", "quantifier": "every list of HDUs with any names, cards and data; every state of the object", "why_tests_cant": "must hold for all names and all orders of access", "anchors": ["pdr/loaders/handlers.py: unpack_fits_headers, handle_fits_file, reindex_dupe_names, _convert_fits_table_to_df", "pdr/pdr.py: Data._load_primary_fits, Data._init_primary_format, Data.load"]}
{"id": "C70", "title": "Headers, labels and text files are read as the text they hold", "statement": "A text header is the text of exactly the lines (pointer's line, as many as RECORDS or ROWS) or bytes the label gives it, whatever the line endings of the file, with line feeds between the lines; a header without a length is refused with NotImplementedError. A text file, or each file of a list in order, is its whole text with line feeds; PDF files give None, a missing file FileNotFoundError. The LABEL of a product is its label up to the END line. (Found: headers of more than 80000 bytes are cut there silently.)", "quantifier": "every file content, pointer, block and list of files", "why_tests_cant": "all contents, mixtures of line endings and positions", "anchors": ["pdr/loaders/text.py: read_text, read_header, skeptically_load_header, read_label, ignore_if_pdf", "pdr/loaders/datawrap.py: ReadHeader, ReadText, ReadLabel", "pdr/loaders/queries.py: table_position"]}
{"id": "C71", "title": "Frames of desktop images", "statement": "Opening a GIF, WEBP, MPO or single-frame image file lists exactly one key per frame, no key twice: IMAGE for a single frame or an MPO file's primary picture, FRAME_0, FRAME_1, ... for animations, and the type and number of the other pictures of an MPO file. Accessing a key, whatever was loaded before, gives that frame and changes nothing else: brightness by line and sample, colours and other channels as channel, line, sample, colours of palette images looked up in the palette. Label scaling is still applied to exactly GeoTIFF and JPEG 2000 images. (Found: files of several frames in other formats, such as multi-page TIFF, cannot be opened at all.)", "quantifier": "every file content, number, size and kind of frames, every state of the object", "why_tests_cant": "all numbers and shapes of frames and orders of access", "anchors": ["pdr/pdr.py: Data._add_compressed_image_objects, Data.load", "pdr/loaders/handlers.py: handle_compressed_image, _check_prescaled_desktop"]}
{"id": "C72", "title": "Elements of PDS3 arrays", "statement": "A binary ARRAY of integers or IEEE reals has the shape of AXIS_ITEMS, and its element at each index is the number that the bytes at its place in the file hold (last axis fastest, from the object's first byte) in the byte order, sign and width of DATA_TYPE and BYTES; a file that ends too early or a type that is not known is an error. An ARRAY in text has the numbers of the text, in order, each the nearest double; any other number of numbers than the label's is an error, and the elements are numbers whatever the text. (Found: arrays of compressed files cannot be read at all; IBM and VAX reals are left as the integers of their bytes; FIRST_INDEX_FASTEST is ignored; exponents and leading points of numbers in text are misread; where a text array begins in its file is ignored; ASCII_REAL numbers become byte strings.)", "quantifier": "every label, file, type, shape and index", "why_tests_cant": "all contents of files and all shapes", "anchors": ["pdr/loaders/table.py: read_array", "pdr/loaders/queries.py: get_array_num_items, parse_array_structure, check_array_for_subobject", "pdr/np_utils.py: np_from_buffered_io"]}
{"id": "C73", "title": "Values of binary PDS3 tables", "statement": "Reading a binary table (columns, multi-item columns and containers where C25 finds them) gives a frame with one column for each item of each column of the label, named as C26 says, and as many rows as complete rows in the file up to ROWS; the value in each row is what the bytes of the cell hold in the column's DATA_TYPE: integers and IEEE reals of either byte order, booleans, characters without trailing zero bytes, bit strings as they are, EBCDIC text, IBM reals (exactly or the nearest single, long ones the nearest double) and VAX reals (by the library's conversion). A column without a type or of an unknown one is an error for the whole table. (Found: multi-item columns of 4-byte IBM reals are converted as if of 8 bytes; columns with PLACEHOLDER in their names are dropped; names that numbering makes equal make the table unreadable.)", "quantifier": "every label, file, type, number of rows and cell", "why_tests_cant": "all contents of files and all layouts of rows", "anchors": ["pdr/loaders/table.py: read_table, _interpret_as_binary, _drop_placeholders", "pdr/pd_utils.py: insert_sample_types_into_df, fmtdef_to_dtype, convert_ibm_reals, convert_vax_reals, convert_ebcdic, booleanize_booleans", "pdr/loaders/queries.py: parse_table_structure"]}
{"id": "C74", "title": "Factors and offsets of table columns", "statement": "Each column of numbers whose label has a SCALING_FACTOR or OFFSET other than 0 is multiplied by the factor, then moved by the offset; other columns are untouched. Integers by integers stay of the column's type, modulo its size; everything else is computed in floating point, rounded to nearest, in double precision for integer columns. Integer factors count as integers only if every column of the table has one. (Found: products that do not fit wrap around silently; whether they do depends on the factors of other columns; a factor of 0 is ignored; an integer factor that the column's type cannot hold makes the table unreadable.)", "quantifier": "every table, factor, offset and value, infinities and NaN included", "why_tests_cant": "all values of all types", "anchors": ["pdr/loaders/table.py: read_table"]}
{"id": "C75", "title": "Objects of PDS3 products", "statement": "Opening a PDS3 product lists the objects its label points to, at any level, in the label's order, without TIFF headers, format definitions and internal objects; then one line prefix table NAME_LINE_PREFIX_TABLE for each image whose block refers to a format file of its own (unless ^LINE_PREFIX_STRUCTURE is empty). Such a table is at its image's position, has one row per line, and each row is made of the bytes before the line's pixels. No name is listed twice if the label points to each once and to none of the tables added. Three kinds of products have fixed lists. An image with two format files makes the product unopenable. (Found: if the label points to an object with LINE_PREFIX in its name that has no block, it is taken to be the prefixes of the last image with a format file, even if it is elsewhere in another file; and then the product cannot be opened unless the first such image is called IMAGE; a prefix table with a block of its own can be listed twice.)", "quantifier": "every label, order of its items, and file system", "why_tests_cant": "all labels and all combinations of images, pointers and format files", "anchors": ["pdr/pdr.py: Data._find_objects, Data._associate_prefix_tables", "pdr/loaders/queries.py: get_block, get_target, _fix_up_line_prefix_table_block, standalone_start_byte", "pdr/loaders/utility.py: is_trivial", "pdr/formats/checkers.py: check_special_objects"]}
{"id": "C76", "title": "Files of PDS3 objects", "statement": "An object whose pointer names a file, alone or first in a sequence, is read from the file of that name (or one standing in for it, C13) in the first search directory that has one; other objects from the file that was opened; if there is none, nothing is found or recorded, or FileNotFoundError is raised on request. What was found stays the answer whatever happens to the file system or is looked for later, unless a fresh look is asked for. Objects described in an UNCOMPRESSED_FILE block beside a COMPRESSED_FILE block are found under either file's name. (Found: if both those files are there, which one is read varies from run to run with the seed of Python's string hashes; the line prefix table of an image is looked for in the file that was opened, be it the label, rather than in the image's file.)", "quantifier": "every label, list of search directories, file system, history of lookups and iteration order of sets", "why_tests_cant": "all file systems and histories; the order of sets of strings changes from run to run", "anchors": ["pdr/pdr.py: Data._object_to_filename, Data._check_compressed_file_pointer, Data._target_path, Data.get_absolute_paths"]}
{"id": "C77", "title": "Text tables read by separators", "statement": "A PDS3 table of text whose rows hold the label's number of fields between separators (commas, or what FIELD_DELIMITER says; fields may be quoted) is read as a frame with a column for each item of each column of the label, in the label's order and under its name, and a row for each line that is not blank, in the file's order; a column's values are the integers, numbers, truth values or trimmed texts that its fields show (fields a row lacks, and the words pandas takes for missing ones, are missing), times the factor and plus the offset; fields of a SPREADSHEET need no positions; a text without rows is an error.", "quantifier": "every label whose columns are where it says (C25) or without positions, every file and every position of the table in it in bytes or lines, every text and quoting of fields and line ends, every reading of decimal numbers, factors and offsets", "why_tests_cant": "texts, quoting, lengths of rows and mixtures of numbers, missing words and texts are unlimited; the type of a column depends on all of its fields at once", "anchors": ["pdr/loaders/table.py:read_table", "pdr/loaders/table.py:_interpret_as_ascii", "pdr/loaders/table.py:_read_table_from_stringio", "pdr/loaders/table.py:_read_as_delimited", "pdr/loaders/queries.py:parse_table_structure", "pdr/loaders/_helpers.py:check_explicit_delimiter"]}
{"id": "C78", "title": "Text tables read by positions", "statement": "If the rows of a PDS3 table of text cannot be read by separators (the first row has not the label's number of fields, a row has more fields than the first, or a column mixes truth values and missing ones), its cells are those at the label's positions of each line, without spaces, tabs, quotes, commas and line ends around them; lines with nothing in their cells are left out; columns, names, factors and offsets are as in C77.", "quantifier": "every label whose columns are where it says (C25), every file and position of the table in it, every text of the lines, every reading of decimal numbers, factors and offsets", "why_tests_cant": "positions, widths, paddings and texts are unlimited, and whether positions are used at all depends on every line of the table", "anchors": ["pdr/loaders/table.py:_read_table_from_stringio", "pdr/loaders/table.py:_read_fwf_with_colspecs", "pdr/loaders/table.py:_drop_placeholders", "pdr/pd_utils.py:compute_offsets"]}
{"id": "C79", "title": "Values of PDS3 images and qubes", "statement": "Loading an IMAGE or QUBE object of a PDS3 product gives an array of the lines and samples (and bands, in the order band, line, sample) that its block says, whose elements are the integers or reals, of the size, signedness and byte order that the sample type names, that the file holds at the pixel's place counted from the object's start: for one band or several in any storage order, with or without samples before and after each line (which are given under the names of line prefixes and suffixes) and with planes around the core of a qube. The block is the one that the label gives under the object's name and the start the one its pointer says. A file that ends before the last pixel, or a block without a type of samples, is an error.", "quantifier": "every label and block with every number of lines, samples, bands and padding, every sample type and size in the standard, every start, every file, compressed or not", "why_tests_cant": "the geometry, the types, the byte orders, the paddings and the contents of files multiply without limit; every pixel of every file must be right", "anchors": ["pdr/loaders/datawrap.py:ReadImage", "pdr/loaders/image.py:read_image", "pdr/loaders/image.py:process_single_band_image", "pdr/loaders/image.py:process_multiband_image", "pdr/loaders/queries.py:generic_image_properties", "pdr/loaders/queries.py:generic_qube_properties", "pdr/loaders/queries.py:get_image_metadata", "pdr/loaders/queries.py:data_start_byte"]}
{"id": "C80", "title": "get_scaled of PDS3 images", "statement": "get_scaled of a PDS3 image or qube gives an array of the shape that loading gives. An element is masked just if it is a special constant: of the product, if constants are known for it; otherwise one customary for the element type, or one that the block gives (under a name that no customary constant in the image has), and for reals whatever is not finite. Every other element is the loaded one times the factor plus the offset of the block (each 1 and 0 if absent), or of its band if the block gives one per band: exactly, for integers and integer factors that fit their type; correctly rounded at each step, in the array's type or the one asked for or in doubles, for reals.", "quantifier": "every block and file whose image loads (C79), every element type but 8-byte unsigned integers, every factor and offset, every set of constants in the block, every content", "why_tests_cant": "values, factors, element types, constants and where they occur multiply without limit; whether a constant of the label counts depends on the whole array", "anchors": ["pdr/pdr.py:Data.get_scaled", "pdr/_scaling.py:find_special_constants", "pdr/_scaling.py:mask_specials", "pdr/_scaling.py:scale_array", "pdr/loaders/datawrap.py:ReadImage"]}
{"id": "C81", "title": "Bins of PDS3 histograms", "statement": "Loading a binary HISTOGRAM object of n items gives a table of one row and n columns, named after the histogram and numbered from 0 (not numbered if there is one), the i-th of which holds the number in the i-th ITEM_BYTES bytes from where its data start, in the byte order and type of the label, times the label's factor and plus its offset. A file that ends too early gives a table without rows (an error if compressed). ASCII histograms and labels of histograms with START_BYTE are refused.", "quantifier": "every label of a histogram of numbers, every number of items and width, every file", "why_tests_cant": "number of bins, widths, types, factors and contents are unbounded; tests have a few histograms", "anchors": ["pdr/loaders/queries.py: get_histogram_fields, read_table_structure, parse_table_structure, _fill_empty_byte_rows", "pdr/utils.py: append_repeated_object", "pdr/pd_utils.py: reindex_df_values, insert_sample_types_into_df, fmtdef_to_dtype", "pdr/loaders/table.py: read_table, _interpret_as_binary"]}
{"id": "C82", "title": "From the bytes of a product on disk to the values of its objects", "statement": "If a file on disk, or the label next to it, begins with a PVL label of ASCII text (values, quantities and nested objects in any layout, at any length up to the limit), then opening it gives exactly the label's values and an index of LABEL and the objects it points to, in order; and loading an image, binary table, text table (delimited, of fixed width or a spreadsheet), array or histogram from that index gives, for each pixel, cell, element or bin, the value of the bytes that the label's pointer, record size and description locate, in whichever of the two files the pointer names. An object whose file is missing does not keep the product from opening; loading it is an error, as is loading a name that is not in the index.", "quantifier": "every label text and layout, every directory, every pointer form (record, byte, file, file and record), every image, table, array and histogram covered by C72, C73, C74, C79 and C81, every file contents", "why_tests_cant": "label layout, number and order of objects, file sizes and contents are unbounded; a test is one product", "anchors": ["pdr/pdr.py: Data.__init__, load, read_metadata, load_from_pointer", "pdr/parselabel/pds3.py: read_pvl, looks_pvl", "pdr/loaders/datawrap.py: ReadImage, ReadTable, ReadArray", "pdr/loaders/dispatch.py: pointer_to_loader", "pdr/loaders/handlers.py: add_bit_column_info"]}
{"id": "C83", "title": "Special cases apply only to the products they are for", "statement": "The special-case rules (nearly 200 of them, for the products of some missions and instruments) are asked about every object of every product. A rule that hands an object to the code for a mission does so only if the product bears one of that mission's marks (data set id, host, spacecraft or instrument name, and the like) or one of the listed strays; the rules that reread sample types as MSB-first apply only to the instruments listed; each rule applies to some product, the code of formats/ it may lead to is listed for each question, and a condition that is asked without error holds exactly if what it says of the product is so. No rule raises for products whose identifiers are scalars and whose searched identifiers are text; and an object of a product that bears no mark is read by the general rules alone, as in C82. The exceptions are stated and refuted: the words STRIP, VISIBL, IMAGE, IR_, TIME, SUN and SOLAR in FILE_NAME send any product to Cassini's rule, and a FILE_NAME that is a number makes loading an error.", "quantifier": "every product (all identifiers, object names, file paths, blocks and labels), every rule of every checker", "why_tests_cant": "the space of products is unbounded; a test of a rule is one product, and no test of one mission's product shows that the rule leaves all others alone", "anchors": ["pdr/formats/checkers.py", "pdr/formats/cassini.py: get_offset", "pdr/pdr.py: load, load_from_pointer", "pdr/loaders/datawrap.py", "pdr/loaders/queries.py: base_sample_info, check_fits, get_block", "pdr/loaders/handlers.py: add_bit_column_info"]}
{"id": "C84", "title": "PDS4 products, from the XML label to arrays and tables", "statement": "Opening a PDS4 product lists every array, table and header of its file areas under its local identifier, its name, or KIND_n, and the label; loading one of them reads, from the file its own file area names (in the directory of the label), what its own element of the label describes: an array has the shape of its axes (by sequence number, in whatever order they stand) and the elements the bytes hold; a fixed-width table has one column per field and repetition of its groups, with the values the bytes at the described places say; a delimited table has what the texts between its delimiters say, and NaN for numbers that are left out. Elements may be in the PDS namespace or in none; what other elements (and those of other namespaces) say makes no difference.", "quantifier": "every label tree (all numbers of file areas, structures, axes, fields and nested groups, all texts and white space) with the parts the reader needs, every file and directory", "why_tests_cant": "labels and files are unbounded; a test reads a few products, each with one arrangement of areas, structures and fields", "anchors": ["pdr/pds4_tools/reader/core.py: read_structures", "pdr/pds4_tools/reader/general_objects.py: Meta_Class", "pdr/pds4_tools/reader/array_objects.py: Meta_ArrayStructure.from_label", "pdr/pds4_tools/reader/table_objects.py: Meta_TableStructure, TableManifest, Meta_Field, Meta_Group", "pdr/pds4_tools/reader/read_tables.py", "pdr/pds4_tools/utils/helpers.py: xml_to_dict, cast_int_float_string", "pdr/pdr.py: _init_pds4, _load_pds4"]}
{"id": "C85", "title": "Metadata of desktop images: every tag, and XMP as a MultiDict", "statement": "The metadata of an image in a desktop format is a dict of the file name, what Pillow knows of it (mode, size, format, number of frames, MIME type, palette) and its tags, in this order, the last of two entries with one name winning: a tag has its EXIF name, or in TIFF and MPO files its TIFF name, or its number; tags about position are unpacked with names without 'GPS'; an ICC profile is a dict of its values. A packet of XML becomes a MultiDict where each element stands under its name without namespace, with its attributes and its text without the white space around it; elements that have neither attributes nor text anywhere in them are left out, and nothing else is; an element with both text and children is refused with a SyntaxError. A position tag whose number has no name and a format without MIME type are refused.", "quantifier": "every tree of XML elements (any depth, attributes, namespaces, texts), every list of tags and values, every table of names of Pillow", "why_tests_cant": "trees and lists of tags are unbounded; a test reads the metadata of a few images", "anchors": ["pdr/pil_utils.py: skim_image_data, get_image_metadata, unpack_xml, pick_text_attrib, strip_ns, unpack_icp, add_gps_ifd"]}
{"id": "C86", "title": "Binary ARRAYs of composite elements", "statement": "A binary PDS3 ARRAY whose elements are made of ELEMENTs, directly or in one COLLECTION, is read, if the file is long enough, as an array with the sizes of AXIS_ITEMS; each of its elements has the named parts in the label's order, and each part has the number that is written, in the byte order and format of its DATA_TYPE, in the bytes after those of the part before it. If the parts follow one another without gaps as their START_BYTEs say, these are the bytes the label describes. The same is read from a compressed file; a file that is too short gives a ValueError. A single ELEMENT needs no NAME and no START_BYTE: its numbers have the name of the array. Refuted: START_BYTE is not used, so that after a gap other bytes are read; an ARRAY of numbers within an element is read as one number; an ARRAY of composite elements in an element gives a KeyError.", "quantifier": "every label, number and order of parts, names, types and sizes, shape, index and content of the file", "why_tests_cant": "labels, shapes and files are unbounded; a test has a few labels without gaps", "anchors": ["pdr/loaders/queries.py: parse_array_structure, read_table_structure, read_format_block", "pdr/pd_utils.py: insert_sample_types_into_df, fmtdef_to_dtype, construct_nested_array_format", "pdr/loaders/table.py: read_array", "pdr/np_utils.py: np_from_buffered_io"]}
{"id": "C87", "title": "Values of uniformly sampled fields of PDS4 tables", "statement": "A Uniformly_Sampled field of a PDS4 table gets one value for each record. In a linear field (also one without scale; the scale may be in capitals) of integers, record j has the double nearest to first + j * interval, with no accumulated error; where first or last value do not fit into eight bytes, it has this integer itself. If all the values are doubles they are exact, also for reals; other fields of reals have in record j an error of at most j * bound * 2^-51, if no value exceeds the bound. In a logarithmic field record j has the double nearest to first * interval^j, exactly for integers and up to the error of the power for reals; in an exponential field it has the quotient of the logarithms of base^first + j * interval and of base. A table with no records gets an error. Refuted: values of linear fields are not in general the doubles nearest to the standard's, as errors add up; a scale with any other name is not refused, but the values are what was in memory.", "quantifier": "every number of records, first value, interval, base and scale; every power and logarithm function of the platform, and every content of memory", "why_tests_cant": "numbers of records and values are unbounded, and rounding errors depend on each of them", "anchors": ["pdr/pds4_tools/reader/read_tables.py: _make_uniformly_sampled_field", "pdr/pds4_tools/reader/data_types.py: get_min_integer_numpy_type"]}
{"id": "C88", "title": "Label blocks corrected in place, over any history of reading", "statement": "For 17 of the 20 modelled special cases that correct the label block of an object, reading the block again, any number of times (reload=True, or after a load that failed), gives the same block as the first successful reading, and the product's metadata stays as the first reading left it. Each correction sets just the keywords it is for (of the block, of its first CONTAINER or COLUMN, or of the columns with the given names, numbers or positions) and leaves the values of all others alone. The three others: every reading of a Phoenix WCL table moves columns 13 and 14 by 1 and 2 bytes again; every reading of a WFF/ATM image exchanges lines and samples again; every reading of a Voyager PRA table (but those of Jupiter) adds one more ITEM_BYTES of 4 to its SWEEP columns. Refuted: that the metadata stays what the label says; that loading an object again finds the same block (Phoenix, WFF/ATM); that a reading that fails leaves the metadata as it was.", "quantifier": "every label block, with repeated keywords and any number of columns; every product context; every number of earlier readings", "why_tests_cant": "the block handed to a special case is shared mutable state of the product: what a reading gives depends on all readings before, of which there can be any number", "anchors": ["pdr/pdr.py: Metadata.metablock_, _metablock_factory", "pdr/loaders/queries.py: get_block", "pdr/formats/checkers.py: check_special_block", "pdr/formats/phoenix.py: wcl_edr_special_block", "pdr/formats/ground.py: wff_atm_special_block", "pdr/formats/voyager.py", "pdr/formats/cassini.py", "pdr/formats/mex.py", "pdr/formats/kaguya.py"]}
{"id": "C89", "title": "Tables found where the special cases of their products say", "statement": "For the products whose labels miscount, reading a table or header takes exactly its bytes, wherever it is in the file and whatever precedes and follows it: LRO RSS, MEX MRS, ring-occultation, CRISM, MARSIS and Cassini RPWS tables of the row count and the true row width give all rows and nothing else (what the label alone says would lose their last bytes), the Hartley 2 shape model its rows from row k of 79-byte rows, Huygens files their header and the rows after it, Phoenix opacities their last rows and their first lines, MSX ENVI headers the rest of the file. Pointers that leave out <BYTES> start where they would with it; Cassini ISS volume 1006 one record earlier; Clementine pointers written as one text are taken apart into file and row; a few offsets are constants; every other product is as its label says.", "quantifier": "every label block, pointer, identifiers and file content of the products the checkers choose; rows of any number and content", "why_tests_cant": "The corrections replace a length or a start that another query computed from the label; that they take the table and nothing else must hold for files of any number of rows, preceded and followed by anything.", "anchors": ["pdr/formats/checkers.py:check_special_offset", "pdr/formats/checkers.py:check_special_position", "pdr/formats/cassini.py:get_position", "pdr/formats/cassini.py:coiss_1006_offset", "pdr/formats/phoenix.py:phxao_header_position", "pdr/formats/mex.py:mrs_get_position", "pdr/formats/lro.py:rss_get_position", "pdr/formats/epoxi.py:cart_model_get_position", "pdr/func.py:specialize"]}
