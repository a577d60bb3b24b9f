# A Rocq model of MillionConcepts/pdr — design

## Method

Shallow, executable Gallina models that mirror the Python functions branch by
branch (`rocq/theories/Model`), small independent specifications
(`rocq/theories/Spec`), proofs (`rocq/theories/Proofs`) and property theorems
(`rocq/theories/Properties`, one file per area; each theorem is closed by
`exact lemma`, followed by `Print Assumptions`, next to an `Example` that meets
its hypotheses).  `Base/` fixes the Python built-ins used by the models.

Conventions
* `Err e` = a raised Python exception; `Ok v` = a normal return.
* `str` = list of 8-bit characters; `bytes` likewise (or `list N`).
* `MultiDict` = list of (key, value) pairs in insertion order.
* theorem suffix `_partial` = weaker than the property (what is missing is
  stated beside it); `_refuted` = the property, as stated, is false of the code
  as it exists: the theorem exhibits a witness.
* files cited as `pds3.py:36-55` are relative to `/repo/pdr`.

## Trusted base

* Coq 8.16.1's kernel (and `vm_compute`, part of it).
* What `Print Assumptions` lists for each theorem: nothing (see the end of this
  file).
* The reading of the Python code: the model is hand-written; the code was not
  run.  Python's own semantics (slicing, str methods, dict ordering, big ints)
  are those of `Base/Py.v`.
* External libraries are modelled by the behaviour the code relies on, each
  stated where it is used: `multidict.MultiDict` (ordered multimap),
  `more_itertools.split_before`, `dustgoggles.dig_for_value(s)` /
  `dig_for_keys` (first match in a traversal order; both level-first and
  depth-first orders are covered), `re` patterns (each pattern hand-translated),
  `numpy` (reshape/fromfile/views as index arithmetic on flat lists; integer
  dtypes as ranges with wrap-around), `pandas` (data frames as lists of rows).

## Not modelled

Operating-system and filesystem behaviour other than a directory listing;
`astropy`, `PIL`, `pvl`, `pds4_tools` label parsing, `rasterio`; floating-point
rounding, except where a theorem is about it; numerical performance, memory;
warnings text; `formats/*` special cases other than the ones listed below.

## Plan per property
* **C01 PVL block structure is preserved** — Model BlockParser as a fold over statements with the two stacks; specify label trees as an inductive forest with a `render` function; prove parse(render t) = t with params a permutation of the keys, by induction on the forest.
* **C02 PVL parsing never crashes on malformed bracketing and says what it drops** — Same model; totality and an explicit characterisation of the result through the stack invariant. Leftover-block contents are lost: proved as what the code does.
* **C03 Label text round-trips to its statements** — Model split_before/chunk_statements/is_an_assignment_line on lines and text; round trip for rendered statements; refutations for END_GROUP without '=', END_* parameters, unspaced continuation lines, values with '='.
* **C04 Comments do not change a label's meaning** — Model the regex substitution as a scanner; prove identity without '/*' and line-local replacement.
* **C05 Non-decimal PVL integers mean what they say** — Model text[:-1].split('#') and int(s, base); prove parse(print b n)=n by induction on digits.
* **C06 Interpreting values never changes the label's shape** — Nested multidict induction on the generic dig-and-edit function.
* **C07 Duplicate pointers are numbered consistently with their objects** — Model the stateful key editor as a state-passing traversal; prove the k-th occurrence is renamed k and all else is unchanged; refutations for surplus blocks and pre-existing suffixed names.
* **C08 Pointer names and object names convert both ways** — Direct.
* **C09 Label trimming keeps the whole label and nothing after it** — Model the chunked scan parametrically in chunk size; prove prefix property and exactness when the END lies inside a chunk; refute buffering independence.
* **C10 metaget returns the first value of a key, or the default** — Tree search model (both traversal orders); first-match spec given by preorder / level order flattening.
* **C11 metablock returns the named block** — As C10; refute the None claim for non-mapping values.
* **C12 The metadata cache is transparent until the label is edited** — State machine over a memo table; refinement to the uncached function; staleness refuted/characterised.
* **C13 Files are found regardless of letter case or compression** — Directory as a list of names; decision theorem for the search; case-folding spec; refutation for compressed requests.
* **C14 Label files are associated by stem only** — As C13 on top of with_suffix.
* **C15 A pointer names the right byte** — Model of the pointer-target sum type and both functions; spec = PDS3 arithmetic.
* **C16 Table extent** — Model of the three functions; arithmetic spec; refutation for missing RECORD_BYTES.
* **C17 Sample types decode the right width and byte order** — Model sample_types and a decoder for numpy/struct codes; finite case analysis over names lifted to all sizes.
* **C18 Built-in special constants are the documented values** — Finite table; vm_compute lifted by forallb_forall; refutation for the N/A entry.
* **C19 Bit columns expand to the bits of their bytes** — Bytes as N<256, bit strings as lists of bool; induction on the chunk list.
* **C20 Bit sub-columns slice the right bits** — Slices of lists; tiling lemma by induction.
* **C21 Wide columns are cut into machine words without loss** — Greedy factorization on N; sum, membership and minimality by strong induction.
* **C22 Image pixels land in the right place** — Flat list + index arithmetic models of fromfile/reshape/transpose; nth_error characterisation.
* **C23 Line prefixes and suffixes are separated from pixels** — As C22 with padding; concatenation spec.
* **C24 Qube side- and back-planes are separated from the core** — Row/plane slicing with Python negative slices; refutation for 0-width suffix.
* **C25 Table columns are cut at the right bytes** — Column definitions as records; offsets as a function; containers recursive; spec = PDS3 byte arithmetic.
* **C26 Duplicate column names become unique** — Name lists; NoDup theorem under a freshness condition; refutation otherwise.
* **C27 Special constants are masked exactly** — Element types with their exact value sets (integers, IEEE singles and doubles, NaN, infinities); equivalence for the found constants, pointwise equivalence for the mask.
* **C28 Scaling computes value*scale+offset** — Model of scale_array with numpy 2 promotion, wrap-around and IEEE rounding (round-to-nearest-even on Q, proved nearest in Base/Float.v) and of the label factors.
* **C29 In-place scaling equals out-of-place scaling** — Model of the exception flow; refuted for scalars.
* **C30 The chosen integer type can hold the scaled data** — Z ranges of dtypes; membership and minimality.
* **C31 Query resolution runs what is needed, once, in order** — Abstract functions over keyword maps with a call trace; induction over the query table.
* **C32 Special-case hooks preempt only when they say so** — Abstract functions.
* **C33 Loader choice is a function of the pointer's name** — Model of the name tests in order; equivalence with an explicit first-match rule list; invariance under numbering by a substring argument; ignore pattern equivalence; refutation for FILE_NAME pointers.
* **C34 Data object life cycle** — State machine over arbitrary loader oracles; invariant by induction over histories.
* **C35 Every listed key can be accessed** — On the same state machine; refuted for loaders that provide nothing and for names of attributes.
* **C36 load_all terminates and leaves nothing loadable unloaded** — Fuelled loop over the growing index; termination by the number of listed names from the loop's position on that are not loaded.
* **C37 Browse images show brightness in order and on scale** — Model of bounds, scaling and colour fill on the arrays of Model/Scaling.v (float32/float64 rounding, integer wrap-around); percentile limits by counting in the sorted list; shades by a relative-error bound for each rounding; monotonicity of rounding. Percentile interpolation is computed exactly; NaN and infinities are not modelled; floats are cast to uint8 modulo 256.
* **C38 Browse images of cubes show the right bands** — Model of band choice on 3-D arrays with banker's rounding of the middle; element-wise equality with the chosen band.
* **C39 MOC image decompression inverts the instrument's Huffman codes** — The tables of the source transcribed by a script; tree insertion, table layout and the bit-queue traversal modelled; each code word walks to its leaf and the leaves are all code words (vm_compute over the eight tables), lifted to every bit stream by induction; position invariant for the bit queue.
* **C40 MOC predictive decoding reconstructs the pixels** — Specification: a relation between images and compressed data (codes of residuals, markers and uncompressed rows every 128 rows) and a file format of fragments; decoding of every such file by induction over rows, groups and fragments. Damaged data: totality, resynchronization, confinement. Transform fragments are an abstract function in this model.
* **C41 The MSL camera loader returns the image the camera wrote** — The whole loader over lists of bytes: header search, bit reader, code tree, planes, weaving. An invariant relates the reader to a position in the stream of bits; the code tree is enumerated once (256 words) and everything else is by induction over planes and groups, with fuel that is proved to be enough, or (for the hang) never enough.
* **C42 Bit readers deliver each bit once, in order** — Reader state machine (queue, count, position); refinement to the list of bits of the data; the wrap-around at the end by an invariant on the queue, for all data.
* **C43 PDS4 labels keep every element** — Trees as ElementTree makes them; read_label, xml_to_dict and the worklist of unpack_to_multidict function by function. The worklist is shown to terminate and to equal a structural recursion; grouping by name is characterised by filters; then, by induction over paths, the values at every path are those of the elements there.
* **C44 Delimited PDS4 tables: every field gets the text of its column** — The splitter on texts, start bytes with uninitialised entries as a parameter, and the extraction with its list of released columns; a specification of records as columns, quoted or not; invariant of the store of start bytes.
* **C45 Fixed-width PDS4 fields are cut at the right bytes** — The label as a tree; the places of values by recursion on the tree against the manifest's parents and positions (mixed radix for the shortcut).
* **C46 PDS4 integer type selection holds the data** — Z ranges; includes the numpy abs() wrap. Theorems on the chosen type against a specification of integer ranges.
* **C47 PDS4 scaling is exact for integers and double precision for floats** — Machine arithmetic of each in-place step with numpy 2 promotion; exactness from the range of the intermediate type; success and failure from the extreme values; doubles by the rounding relation of C14's specification.
* **C48 PDS4 special constants are masked exactly** — Pointwise theorem for integers and floats.
* **C49 Line-ending canonicalization** — Model of the regex replacement; list induction.
* **C50 Delimiter detection** — Decision model.
* **C51 Format files are spliced in place** — Recursive model with a format-file oracle.
* **C52 Repeated definitions expand in order** — Model of the loop with its leaking variables.
* **C53 IBM hexadecimal floats convert exactly** — Exact rational value; the double conversion is exact because 24 bits fit (bit-level statement; Flocq if needed).
* **C54 Keyword filtering passes exactly the accepted arguments** — Association-list model.
* **C55 Quantities keep their number and their units** — Model of the unit pattern and of literal interpretation; induction on the items of a list.
* **C56 Reading a whole PVL label** — Composition of chunking, block parsing, pointer numbering and interpretation, by induction on the label tree.
* **C57 Decompressors by suffix** — Decision model on names; case analysis.
* **C58 Root of a data set** — List model of path components; induction.
* **C59 Signatures of special-cased functions** — Lists of parameters in any iteration order; permutation arguments.
* **C60 MOC transform-compressed images** — Bit reader refined to the list of bits; code trees checked against the code words (vm_compute over the eight tables); coefficients, blocks, groups, fragments and files by induction over a coding relation; the floating-point inverse transform is an arbitrary function.
* **C61 get_scaled of a PDS4 array and the loaded array** — apply_scaling gives both the result and what is left in the caller's array (in place unless the type had to change).
* **C62 PDS4 bit masks keep exactly the masked bits** — The mask read as a number, bit by bit with Z.testbit; special constants pointwise; both numpy behaviours of where() of a scalar.
* **C63 Groups in delimited PDS4 tables: every field gets its columns** — Columns of a record numbered by recursion on the tree against offsets and skip factors of the manifest; column numbers in numpy's integer types.
* **C64 PDS4 arrays hold the numbers the file holds** — Numbers specified digit by digit to the base 256 and by IEEE fields; frombuffer decoded element by element; shape by the sequence numbers.
* **C65 PDS4 fields hold the numbers their texts and bytes say** — Grammars of integers, decimals and truth values as relations; conversion of a column is an iff against them (integers), sound and complete (reals); nearest double.
* **C66 The DataFrame of a PDS4 table shows what its file says** — A table as a list of fields with shape and values (with masks); structured_array_to_df as pieces; a frame specified cell by cell; composed with C44/C45/C63 (bytes to texts) and C65 (texts to values) to theorems from file to DataFrame.
* **C67 Names of PDS4 columns and objects** — The manifest's names (found by scanning a flat list) proved equal to names read off the tree of groups; names split uniquely when they have no separator; the dictionary of objects keeps the last of each name.
* **C68 Parts of FITS files are found where labels say** — HDUs as records of sizes, cards and data (astropy trusted); the byte index as a list in which later entries win; places specified as sums of sizes; pointer forms of PDS3 and objects of PDS4 on top; refutations by general theorems or small files.
* **C69 FITS files opened directly** — Keys by groups of equal names proved a permutation of position-wise keys; access through the life-cycle model of C34 from any state; tables by the piecewise frame model of C66.
* **C70 Headers, labels and text files** — Universal newlines as C49's canonical text; picked lines proved equal to a window of the file's lines, end to end from the label's position (C16, C50); labels by C09.
* **C71 Frames of desktop images** — A file as what pillow decodes; keys proved to be the frame keys of a separate relation, distinct; access through the life-cycle model of C34 from any state.
* **C72 Elements of PDS3 arrays** — Labels as multidicts, files as bytes, the regular expression as a matcher; elements proved to hold the value that a separate relation between bytes and numbers gives, through the type names of C17; texts of numbers as a separate grammar.
* **C73 Values of binary PDS3 tables** — From the label to the frame: the placement of C25, the type names of C17, the IBM conversion of C53 and the names of C26 composed in one model of read_table; cells proved to have the value that a separate relation between type, bytes and value gives. The VAX conversion and code page 500 are parameters.
* **C74 Factors and offsets of table columns** — One model of pandas' column types and numpy's mixed arithmetic (integers modulo 2^bits, floats correctly rounded with infinities and NaN), proved against a relation for each operation; the type that pandas gives the column of factors is part of the specification.
* **C75 Objects of PDS3 products** — _find_objects as a function of the parsed label (either walking order), the file system and the start bytes of objects; the index and the parents of line prefix tables proved against relations that pick items of a list by a property. The contents of such tables follow from C51 and C25.
* **C76 Files of PDS3 objects** — _target_path with its memory as a state, over any file system and any order of the set of two keys; C13 gives the file.
* **C77 Text tables read by separators** — the tokenizer of pandas.read_csv as a state machine over any text, proved to give the fields of any lines written with or without quotes; type inference on the texts of a column; names, placeholders, factors and offsets as for binary tables (C73, C74).
* **C78 Text tables read by positions** — pandas.read_fwf with the label's column positions, with the condition under which the separator reader gives up; cells trimmed as read_fwf does.
* **C79 Values of PDS3 images and qubes** — the keywords of a block become the properties of Model/Image (C20-C24), the start that of C15, the sample type that of C17 and the bytes of an element those of C71; proved from the block (and the label) to every element, for images, padded lines and qubes with planes.
* **C80 get_scaled of PDS3 images** — C27 and C28 about what C79 loads, from the label and the bytes of the file to masked and scaled numbers; the constants that are found are given by the block, the element type and the set of values in the image.
* **C81 Bins of PDS3 histograms** — the special path of histograms to a format definition, joined to the table reader of C73; by induction on the number of items for the names and the packed offsets.
* **C82 From the bytes of a product on disk to the values of its objects** — Model/Product.v puts the models of label reading, index, file search, dispatch and loaders together (pdr.py __init__, load); the theorem for each kind of object composes theirs: the label's text is trimmed (C09), cut into statements (C03), nested (C04) and read (C05, C55) into the label that Spec/Product.v says the entries mean; the index is that of C75, the file that of C76 and the start that of C15.
* **C83 Special cases apply only to the products they are for** — Model/Checkers.v transcribes checkers.py rule by rule (tools/checkers.py wrote them down) with an evaluator that raises as Python would. Spec/Checkers.v lists the marks of each mission. A syntactic check `untrue marks c` (proved sound: without the marks the condition cannot be true) is run on all the rules, by computation, which settles every product at once. Model/SpecialProduct.v puts the rules before the general ones of Model/Product.
* **C84 PDS4 products, from the XML label to arrays and tables** — Model/Pds4Product.v transcribes the making of meta data from elements (xml_to_dict with casts of numbers), the checks of required keys, the search for structures by file area, the fields and groups of tables, and hands them to the readers of Model/Pds4Values.v and Model/Pds4Frame.v. Spec/Pds4Product.v says what a label describes in terms of the raw tree (only child called n, text shown, whole numbers). The proof replaces the tree by one with short names, shows what is found under each key of the meta data, and composes with C64, C66 and C67.
* **C85 Metadata of desktop images: every tag, and XMP as a MultiDict** — Model/ImageMeta.v transcribes pil_utils.py over the trees of Model/Xml.v. Spec/ImageMeta.v says what a dict made of a list of entries is (order of first appearance, last value), and by an inductive relation what shows an element. Proved by induction over the tree, for both directions; the metadata by an invariant of the fold over the tags.
* **C86 Binary ARRAYs of composite elements** — Model/ArrayRecords.v runs Model/Table.v's read_format_block on the array's label and makes the packed structured type of its fields. Spec/ArrayRecords.v says what such a label is, and which bytes of the file each part has. Proved by induction over the fields of the label and over the parts of one element; the refutations are labels on which the model reads other bytes.
* **C87 Values of uniformly sampled fields of PDS4 tables** — Model/Sampled.v transcribes _make_uniformly_sampled_field over Python's integers and floats (Base/Float.v). Spec/Sampled.v has the formulas of the standard. Proved by induction over the records: exactly for integers, by the nearest-double lemmas where every value is a double, and with half an ulp per addition otherwise; the drift of 0.1 is computed.
* **C88 Label blocks corrected in place, over any history of reading** — Model/Blocks.v has a small state monad for Python code that assigns to a MultiDict (also nested ones) in place, with the state at an exception, and transcribes 20 functions of formats/*.py in it, and the query for a block. Spec/Blocks.v says what a correction is in terms of all values of each keyword. Proved: each of 17 functions does nothing to a block that it has corrected (assignments are idempotent and preserved by the assignments after them), hence by induction over readings; the three that add up by an invariant over the number of readings.
* **C89 Tables found by special cases** — Model/SpecialPosition.v: the handlers of check_special_position and check_special_offset, composed with the checkers (Model/Checkers.v), table_position and data_start_byte (Model/Position.v) and the text selection. Spec/SpecialPosition.v says which rows of which width each product has. Proved: the window of any file pre ++ rows ++ post is exactly the rows (by the length of a concatenation of equal rows), the header and table of Huygens tile the file, equality with the generic query for a corrected pointer.

## What is modelled

Every definition in `rocq/theories/Model` cites the lines it models.  By file
of `/repo/pdr`:

| code | model | left out |
|---|---|---|
| `parselabel/pds3.py` | `Pvl.v`, `PvlLiteral.v` | non-ASCII case mapping; `pvl` itself |
| `parselabel/utils.py` | `Trim.v` | opening of files |
| `pdr.py` Metadata (80-207, 1213-1233) | `Meta.v` | `repr` of tuples and sets |
| `pdr.py` Data: load, load_all, `_load_pds4`, access, purge | `Data.v` | what each loader does (abstract outcomes), printing, writing of files |
| `pdr.py` get_scaled, `_scaling.py:17-181`, `np_utils.py:55-63` | `Scaling.v` | `scale_pds4_tools_struct` |
| `utils.py`, `loaders/utility.py` | `Files.v` | the operating system, `check_primary_fmt` beyond names |
| `func.py`, `loaders/datawrap.py:51-74` | `Func.v` | tracking |
| `loaders/dispatch.py` | `Dispatch.v` | the special cases of `formats/checkers.py` (parameters) |
| `loaders/image.py`, `loaders/queries.py:45-252` | `Image.v` | line prefixes of special products |
| `loaders/datawrap.py` 42-103 (Loader, ReadImage), `loaders/queries.py` 45-87, 90-146, 170-181, 205-258 (the keywords images and qubes are described by), `pdr.py` 872-900 | `Model/PdsImage.v` | special products |
| `loaders/queries.py` positions, `loaders/_helpers.py`, `utils.py:40-56` | `Position.v` | interleaved objects, float label numbers |
| `loaders/queries.py` tables, `pd_utils.py:39-218`, `loaders/table.py` | `Table.v` | pandas' parsing of cells, per-column scaling |
| `bit_handling.py`, `formats/juno.py:34-58`, `formats/checkers.py:748-801` | `Bits.v` | |
| `np_utils.py:72-134`, `pd_utils.py:306-341` | `Ibm.v`, `Image.v` | |
| `datatypes.py` | `Types.v` | |
| `browsify.py:19-156, 246-285, 301-379` | `Browse.v` | PIL, writing of files, tables |
| `formats/mgs_moc.py` | `MocTables.v`, `Moc.v`, `MocTransform.v` | the cosine butterfly (1018-1133) |
| `parselabel/pds4.py`, `pds4_tools/reader/read_label.py`, `pds4_tools/utils/helpers.py` (xml_to_dict) | `Xml.v` | the XML parser; text that is not ASCII; the list of keys made by dustgoggles |
| `pds4_tools/reader/data_types.py` (integer types, scaling, special constants), `read_arrays.py` (bit masks), `_scaling.py` (PDS4), `pdr.py` (get_scaled, PDS4) | `Pds4Types.v` | complex numbers, strings, extended floats; numpy 1 promotion; arrays without elements in bit masks; not-a-number constants |
| `pds4_tools/reader/table_objects.py` (manifest: offsets, skip factors, parents), `read_tables.py` (bytes of the table, delimited and fixed-width extraction), `core.py` (read_byte_data) | `Pds4Tables.v` | values of uniformly sampled fields; texts that are not UTF-8; fields without length in Table_Character; missing files |
| `pds4_tools/reader/data_types.py` (types, conversion of arrays and of table fields), `read_arrays.py` (reading arrays), `array_objects.py` (axes) | `Pds4Values.v` | decode_strings; dates (not converted by pdr); complex numbers in text; sign of zero; a boolean field with an @ in it; masks of special constants (in `Pds4Types.v`) |
| `pds4_tools/reader/table_objects.py` (names of groups and fields, full_name), `read_tables.py` (new_table, from fields to the table), `pd_utils.py` (structured_array_to_df, rectified_rec_df), `np_utils.py` (enforce_order_and_object), `pdr.py` (_init_pds4, columns in _load_pds4), `general_objects.py` (id) | `Pds4Frame.v` | scaling of fields; special constants of texts, truth values and complex numbers; uniformly sampled tables; byte swapping (values only); tables of no fields |
| `loaders/handlers.py` (FITS), `loaders/queries.py:345-384`, `pdr.py` (FITS: _load_primary_fits, _find_fits_header_pds4_id, _load_pds4) | `Fits.v` | astropy itself; StopIteration in headers; special cases of start bytes; compressed FITS files |
| `loaders/text.py` | `Text.v` | decoding other than the identity; the pvl format |
| `pdr.py` (desktop images: load, _add_compressed_image_objects), `loaders/handlers.py` (handle_compressed_image, _check_prescaled_desktop) | `Desktop.v` | pillow itself |
| `loaders/table.py` (read_array), `loaders/queries.py` (arrays), `np_utils.py` (np_from_buffered_io) | `Array.v` | arrays with subobjects (see `Model/ArrayRecords.v`); text that is not ASCII |
| `loaders/queries.py` 641-663 with subobjects, `pd_utils.py` 157-239 for arrays | `Model/ArrayRecords.v` | special sample types, bit elements |
| `loaders/table.py` (read_table, _interpret_as_binary), `pd_utils.py` (types, IBM, VAX, EBCDIC, booleans) | `TableValues.v` | special sample types; bit columns; text tables (C25, C52); the VAX library; code page 500 |
| `pdr.py` (_find_objects, _associate_prefix_tables, _object_to_filename, _check_compressed_file_pointer, _target_path, get_absolute_paths), `loaders/queries.py` (get_block, get_target, _fix_up_line_prefix_table_block), `formats/checkers.py` (check_special_objects) | `Objects.v` | other special cases (parameters); sets of names; FILE_NAMEs that are sequences; normalization of paths |
| `loaders/table.py` 72-110, 137-158, 186-273 (read_table, _read_as_delimited, _read_fwf_with_colspecs, _read_table_from_stringio, _interpret_as_ascii), `loaders/queries.py` 570-610 (parse_table_structure of text tables); pandas.read_csv and read_fwf as pdr calls them | `Model/TextTable.v` | read_strictly_fixed (never called); decimal conversions and column guessing of pandas (parameters) |
| `loaders/queries.py` 538-557, 571-640, 798-812 for histograms (get_histogram_fields, read_table_structure, parse_table_structure), `pd_utils.py` 157-218 without offsets | `Model/Histogram.v` | histograms of text (refused) and labels that are not numbers where numbers belong |
| `pdr.py` 228-333, 349-357, 535-585, 762-850; `pds3.py` 134-170; `datawrap.py` | `Model/Product.v` | special cases of `formats/`, errors caught by `load` (Model/Data.v), documents, FITS and pictures as objects |
| `formats/checkers.py` 59-1430; `formats/cassini.py` get_offset; `pdr.py` 445-456 | `Model/Checkers.v`, `Model/SpecialProduct.v` | what handlers of `formats/` do once chosen (a parameter), `special_image_constants`; questions about an object are asked before it is read |
| `formats/{voyager,pvo,galileo,lro,msl_edr,mariner,ihw,phoenix,mex,ground,cassini,ulysses,kaguya}.py` (functions cited there), `pdr.py` 153-182, 1221-1233, `loaders/queries.py` 310-320, 891 | `Model/Blocks.v` | other targets of check_special_block; blocks shared between objects; interleaved objects |
| `formats/checkers.py` 59-123, 577-701 and the position and offset handlers in `formats/{lro,mex,ground,mro,cassini,epoxi,phoenix,msx,msl_cmn,msl_rems,msl_edr,themis,clementine}.py` | `Model/SpecialPosition.v` | fn as a list; non-integer ROWS of cassini.get_offset |
| `pds4_tools/reader/core.py` 179-311; `general_objects.py` 552-654; `array_objects.py` 359-470; `table_objects.py` 498-600, 659-696, 1030-1087, 1298-1340, 1615-1890; `header_objects.py` 190-226; `read_tables.py` 470-475, 840-960; `pdr.py` 335-347, 714-757 | `Model/Pds4Product.v` | FITS files, special cases, contents of headers, Uniformly_Sampled, display settings; nan and inf in labels stay text |
| `pds4_tools/reader/read_tables.py` 81-185 | `Model/Sampled.v` | the warning about the last value; powers, logarithms |
| `pil_utils.py` 27-147 | `Model/ImageMeta.v` | Pillow, ElementTree's parser, paramdig |
| `formats/msl_edr.py` (125-626) | `Msl.v` | file descriptors, Pillow (a parameter), the search for more JPEG images, which has no effect |

Anything not in the table is not modelled: in particular the other files of
`formats/` and `loaders/handlers.py` apart from what is cited.

## Assumptions

`Print Assumptions` stands beneath every theorem named in MANIFEST.json and
prints "Closed under the global context" for all of them: no axioms, not even
those of the standard library.
