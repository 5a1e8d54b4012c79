# Formal model of piql/afs in Rocq (Coq 8.16.1)

## Scope and method

The C sources under `/repo/src` and the parts of the vendored `thirdparty/minixml` that the
library calls are modelled as small, total, computable Gallina functions.  Mutation through a
pointer becomes a function returning the new value, `NULL` becomes `None`, loops become folds or
structural recursion (explicit fuel only where the recursion follows an input stream, with a
theorem that the fuel suffices).  C integers are `Z`; wherever the code can wrap, the wrap is written
into the model (`u32`, `i32`, `u64`).  C strings are `list Z` (bytes 1..255, no NUL).
Undefined behaviour (NULL dereference, out-of-bounds access, signed overflow where it matters)
is a distinct outcome in the model.

Platform: LP64, two's complement, GCC/glibc (`unsigned long` has 64 bits, `int` 32,
`atoi(s) = (int)strtol(s)` with 64-bit saturating `strtol`).

### Files (rocq/theories)

| files | contents |
|---|---|
| `CBase.v` | machine integers, C strings, printf / atoi / strtoll |
| `*Model.v` | the model, one definition per C function, each with file and lines |
| `Spec*.v` | independent specifications (FIPS 180-4, UTF-8, geometry, normal forms, heaps, tables, ...) |
| `*Proofs*.v`, `XmlRound.v`, `XmlRoots.v`, `XmlMem*.v`, `TocXmlBase/Round/Norm.v` | lemmas |
| `Prop*.v` | the property theorems, a non-vacuity example beside each, `Print Assumptions` |

| model | code |
|---|---|
| `ShaModel.v` | sha1.c, sha256.c, sha1hash.c, sha256hash.c |
| `TocModel.v` | framerange(s).c, toc/preview*.c, tocfile*.c, tocdata*.c, tocmetadata*.c: objects, validity, equality, clones, queries, layout geometry |
| `BoxModel.v`, `FormatModel.v` | controlframe/boxingformat.c: derived quantities, equality, clones |
| `ControlModel.v` | administrativemetadata.c, technicalmetadata.c, controldata.c, configuration part of boxingformat.c, with XML |
| `XmlEntity.v`, `XmlModel.v`, `XmlMem*.v`, `WalkModel.v` | thirdparty/minixml: entities, reader, writer, string buffer, walking; xmlutils.c |
| `NodeModel.v`, `NodeBuild.v` | mxml-node.c: nodes with their five links on a heap (create, add, remove, delete), mxmlWalkNext and mxmlFindElement over the links |
| `ParseModel.v` | mxml-file.c: mxml_load_data building nodes on that heap, the error exits with their deletes; mxmlGetElement, mxmlGetOpaque, mxmlElementGetAttr, first child and next sibling |
| `TocXmlModel.v`, `TagsModel.v` | save_xml / load_xml of every table-of-contents object, tag strings |
| `WsModel.v` | the 19 whitespace callbacks and saving with them |
| `FileModel.v` | mxml_file_getc, mxmlLoadFile, mxmlSaveFile, the 18 `*_save_file` and `*_load_file` functions over a disk (also interrupted: `SpecCut.v`); the boxing format's configuration files in `PropFile2.v` |
| `TableModel.v` | the text tables of tocfiles.c, tocmetadata.c, tocdatafilemetadata.c, previewlayoutdefinitions.c |
| `ImageModel.v` | toc/previewimageutils.c |
| `ZeroModel.v` | zeroreferenceframe.c |
| `LoadModel.v` | load_xml of every kind on an object that is already in use, failed loads included |
| `ThreadModel.v` | get/free of shared objects as single reads and writes of the count, threads, schedules |
| `ToolModel.v` | the recovery tool tests/assemblytool (unboxingtool.c, main.c) on a disk; the boxing library (decoder, stripe size, list of formats) is a parameter |
| `BuildModel.v` | access by index and counts of every list, setters of a table of contents, histories of its calls |
| `WriterModel.v` | mxml_write_node with its column counter over linked nodes, mxmlSaveString/mxmlSaveAllocString, the 19 save_string functions |
| `SessionModel.v` | steps of a program that edits, saves and loads a table of contents on a disk |
| `CreateModel.v` | create/init functions as field assignments to memory with arbitrary contents |
| `RefModel.v`, `CloneModel.v` | create, append, new_reference, free, clone and setters of every counted type, on a heap |

Not modelled: `afs.c` (three setters of global log callbacks), the text of the built-in formats in
`controlframeboxingformat.c` (data), the `*_test` self tests of the hash files (sha1hash.c 549-580,
sha256hash.c 553-597), the Windows-only `sum1w`/`sum2w` of sha1.c, malloc failure,
`DLOG` output, stdio errors after a successful fopen, the line wrapping of the XML writer
(the library sets the margin to 0, which switches it off), and everything inside the boxing library.

## Trusted base

* Coq 8.16.1's kernel (and `coqc`).
* `Print Assumptions` (run in the `Prop*.v` files for every property theorem): every theorem is
  *Closed under the global context*, except the seven `C38_*` theorems (binary32 arithmetic through
  Flocq), which list four axioms of Coq's standard library:
  `ClassicalDedekindReals.sig_not_dec`, `ClassicalDedekindReals.sig_forall_dec`,
  `FunctionalExtensionality.functional_extensionality_dep`, `Classical_Prop.classic`.
  No axiom is added by this development.
* The faithfulness of the model to the code, by reading; the code was not run.
* Behaviour assumed of code outside the repository (git submodule `unboxing`, empty here, and libc):
  `gvector` is a growable array, `boxing_string_clone` is strdup with `NULL -> NULL`,
  `boxing_image8` is a width x height byte array, malloc never fails, stdio reads and writes
  files faithfully, `printf`/`atoi`/`strtoll`/`sscanf("%ux%u")` as in the C standard.
  Where a theorem depends on an external function (`boxing_string_split`, `boxing_image8_crop`,
  `boxing_config_is_equal`, the frame factory) the function is an argument of the theorem with its
  contract as a hypothesis, and an example gives a function that meets the contract.

## Naming

A theorem `Cxx_..._partial` proves the property under a restriction the English statement does not
have; a theorem `Cxx_..._refuted` proves that the code does not satisfy the unrestricted statement
(a finding about the code, not a gap of the proof).  MANIFEST.json marks a property `partial` when
either exists for a part of its statement.

## Findings about the code

* C06: data frame counts are wrong for files of 4 GiB and more (size cut to 32 bits).
* C07: a frame that reports no levels per symbol makes the colour depth loop run for ever.
* C13: the sum of a section's edge wraps and the crop is asked for columns outside the image.
* C15: metadata with `]]>` is cut when saved.
* C17-C22: blank names and outer blanks of strings are lost; a half-set overlap and a format id
  without data are lost; duplicate section or layout ids are valid but do not load.
* C23: classes with an alias are saved without their properties; bad technical parts are accepted.
* C25: invalid pages are written.   C27, C30: frame and size totals of unordered or spanning files.
* C29: look-up by unique id dereferences NULL when a stored file has none.
* C34: a UTF-16 byte order mark anywhere in the text makes the reader run past the terminator.
* C36: the location table overflows its block by a byte for some pages, and with no rows is returned
  unwritten; formats of 255 bytes overrun a local array; NULL strings of valid files crash.
* C38: for odd widths the picture is black one column beyond the recorded bar; the bar is one pixel short.
* C40: the older form loses the checksum.
* C44: negative sizes overrun the read buffer; a read error returns uninitialised memory.
* C46: a clone of a named format without frame differs from it; capacity * bits wraps;
  `afs_boxing_format_init` leaves fields unwritten.
* C50: mxmlAdd of a node beside itself (where and child naming the node) makes it its own sibling.
* C49: a page whose start section is beyond its first frame is counted from its start frame.
* C47: giving a setter its own current value copies freed memory.
* C48: indented saving of a file to disk and of file lists compares a NULL name (crash).
* Every `*_save_file` ignores the result of mxmlSaveFile (a full disk is reported as success) and, except
  the file metadata source, leaks the tree when fopen fails; afs_toc_file_save_file and
  afs_technical_metadata_save_file empty the file before they find out that the object cannot be saved.
* The file reader consumes the byte that does not continue a UTF-8 character, the string reader does
  not: `<a b="x\xC3"></a>` loads from a file and not from a string.
* Both readers reject the second surrogate DFFF (`lch >= 0xdfff`).
* C54: saves write in place. A document cut right after `<Index`, `<files`'s declaration, `<preview`, `<file`, ...
  loads as an empty object without an error, control data cut after `<TechnicalMetadata` as one without
  format and files (mxml returns an unclosed single top element as the document).
* C70: a text whose first start tag is malformed (`<afs name=>`) is rejected without freeing the node of that tag,
  and text between the end of the root and another tag is a node nobody frees.
* C56: reference counts are plain ints without lock or atomics: objects shared by threads leak, are used after
  release or are released early when calls overlap.
* C57: the public `afs_toc_preview_layout_definition_init` leaves `sections` unwritten.
* C55: a load that fails leaves what it has read in the object (only administrative metadata and boxing format are
  untouched); lists append. Fields without an element keep their old value: a non-digital file loaded over a
  digital one is digital with the old size, position and unique id; plain text data of a metadata source is ignored when the
  source already has data; a reel without files element keeps its files. Three constructors that load a document
  ignore a failed load.
* C60: the recovery tool compares `end_byte > start_byte`: a piece of one byte of a longer frame is written as the whole frame, so
  the checksum fails for such files.
* C62: files of different directories with the same name overwrite each other.
* C63: frame images of 128, 256 or 512 pixels are ambiguous; with 64 extra bytes the pixels are read from offset 32.
* C64: `-read a-2147483647` overflows the loop counter; C66: a template with a width above 12 + its digits overflows the name buffer.
* C65: a chosen file whose checksum does not match stays on the disk as decoded, and the tool still exits with 0 (main.c 475-485 ignores the results).
* C65: main.c 408-409 passes the NULL checksum of a missing table of contents to strcmp: a first run crashes. A control file without table
  of contents dereferences NULL (434). A failed first table of contents followed by a present one ends with -1 (426).
* C77: a metadata source with an empty first tag and a tag with a leading blank changes at its second save and load again (for a
  splitting function that drops empty parts).
* C75: *_load_string deletes its document only when load_xml accepts it (all kinds but boxing formats); *_save_file leaves the document
  behind when the file cannot be opened, except for metadata sources of files, lists of sections and technical metadata;
  afs_boxing_format_save_string and afs_toc_file_preview_page_save_string would leave it when save_xml fails, which cannot happen.
* C74: in an indented table of contents the whole `data` element of a file follows the end tag of the element before on the same
  line (src/tocdata.c has no rule for it, the other savers have); in a file entry `<preview><dpi>300</dpi>` is one line; in control
  data `file`, `source` and metadata `data` elements start at column 0 inside deeper elements, and `</dpi>` stands at column 0; lists of
  sections put `<sections>` on the line of the declaration and the sections at column 0; a page alone is indented by 4; an
  element with an empty text leaves a line of blanks behind its tag.
* C73: files without digital data, files of 4 GiB and more (size is xs:unsignedInt), pages whose layout id is a word, metadata
  sources with inline data or without tags, tables of contents without layouts or without reels, and the old file form are saved
  without error as documents that xsd/tocdata.xsd rejects. Layout ids are xs:string where they are defined and xs:unsignedInt where
  they are used, so the schema's own example ("B") could not be referred to by any page.
* C73: the example in xsd/tocdata.xsd (lines 10-84) conforms to the schema and is refused by afs_toc_data_load_xml: its metadata
  source has no attribute id, which the schema declares optional and the code requires.
* C73: control data is never of the published types: JobId and Location are not written, `class` is written with a key attribute
  that the type does not declare. control_frame.xsd declares no global element and refers to a type ns:file that no schema defines;
  tocdatafile.xsd has a global element with minOccurs. The schemas cannot be used as they are; SpecSchema takes their intent.
* C72: control data is saved as two elements behind the XML declaration (AdministrativeMetadata and TechnicalMetadata, no common
  element around them), so the saved text is never an XML document and no other XML tool may read it (C72_two_roots_refuted).
* C72: a text with a control character (below 32, other than tab, line feed, carriage return) is saved without any error, and the
  result is not an XML document: no other tool may read it.
* C71: documents other XML tools write are understood except: an empty comment `<!---->` is not recognised and swallows what
  follows; without an XML declaration a comment before or after the document element makes the document unreadable; the first
  character of an attribute name beyond ASCII is cut to one byte; references of more than 62 digits are refused; carriage returns
  are not normalised; in elements with a plain text, text behind a comment and text in CDATA sections is lost (`<Title><!--x-->Film</Title>`
  and `<Title><![CDATA[Film]]></Title>` load as empty titles). Text after the document element is dropped without notice, and a
  document type with an internal subset is cut at its first `>`.

## Plan per property

| id | modelled | proof |
|---|---|---|
| C01, C02 | init/process/done/compress with 64-bit unmasked words; FIPS 180-4 as spec on 32-bit words | congruence mod 2^32 for the rounds; buffering invariant by induction over the pieces |
| C03 | sum1/sum2/hash_filehandle over a file = list of bytes | induction on the remaining size; out-of-range results; negative sizes as UB findings |
| C04 | hex loop | pointwise, injectivity of the digit map |
| C05 | get_frame_ranges, insertion sort by swaps, merge | sortedness + coverage invariant of the merge loop |
| C06, C07 | get_ceil with the `(unsigned)` cast, bit-counting loop | arithmetic; full C06 is refuted at >= 4 GiB |
| C08 | get_frames_count, get_sections_on_frame | arithmetic and sum over frames by induction |
| C09-C11 | section overlap with 32-bit wrap, append, add_layout_definition | geometry by lia; invariants over operation lists |
| C12 | query + insertion sort with strcmp | sorted, duplicate free, membership |
| C13 | extract loop over images as functions/arrays | pointwise |
| C14-C16, C34, C35, C39 | minixml writer, reader (UTF-8/UTF-16 getc, entities, CDATA, PI, comments), two-pass string buffer | simulation `parse (write ws t) ~ t` for every whitespace callback |
| C17-C23, C40 | save_xml / load_xml of every object over XML trees | `load t' = normalise x` for every `t'` similar to `save x`, composed with C14 |
| C24 | clone/equal of every object | structural induction |
| C25 | add functions, save guards | invariant over call histories |
| C26, C27 | add_frame_offset, first/last frame | list induction; C27 refuted for unordered lists |
| C28, C29, C30 | predicates and look-ups; NULL unique id is a crash outcome | list induction; refutations where the code is wrong |
| C31, C32 | string_cut/trim on buffers; decimal printing and atoi | induction on digits |
| C33 | WalkNext/FindElement over positions in a tree | refinement to preorder |
| C36 | table renderers with explicit buffer sizes | length bounds; refuted for the location table |
| C37 | heap of counted objects | invariant over call histories |
| C38 | binary32 arithmetic | Flocq error bounds |
| C41 | tags join, split as a parameter with its contract | list induction |
| C42 | sums over the reels of a table of contents (files, frames, sizes) | list induction |
| C43 | access by index into reels, files, sections | case analysis on the bounds |
| C44 | checksum requests with ranges outside the file | reuse of C03; refutations for the edge sizes |
| C45 | equality and clones of control data | congruence, with the contract of boxing_config_is_equal |
| C46 | derived fields of a boxing format as a function of library answers | case analysis, arithmetic |
| C47 | setters on the heap model of C37 | frame rule on heaps |
| C48 | the whitespace callbacks transcribed rule by rule, a writer over callbacks that may fail | every callback yields blanks, composed with C14-C23 |
| C49 | frame count of a preview over its pages | minimum/maximum invariant of the loop, layout positions of C08 |
| C50 | minixml nodes as cells on a heap; create, add, move, remove, build | refinement of trees with a hole: links of the pieces around the hole, frame conditions |
| C51 | mxmlDelete on the heap | the deletion walk consumes a tree node by node; induction on the tree, fuel bound 2 x nodes |
| C52 | files as a map from names to bytes, order of opening and building per type, the file reader | the file reader's tokens equal the string reader's on every code point; composed with C17-C23, C48 |
| C53 | the UTF-16 branches of the file reader | token by token against RFC 2781; one boundary refuted |
| C54 | the file reader on every beginning of a text (CutProofs), the 18 save/load pairs | a run on the cut text is compared step by step with the run on the whole text: at every state at which the input can end, what is returned is a `torn` version of the final document; then each load function on torn documents; the crash points that load as empty objects are exhibited |
| C55 | every load_xml as a function from the old object and the document to the new object and the result, also when it fails | load functions compared with the loads into new objects; an inductive description of list loads; sim-based reading of saved documents; counterexamples by computation |
| C56 | counts of shared objects; get and free split into their single memory accesses, threads, schedules | invariant over every step of every schedule; counterexample schedules |
| C57 | constructors as assignments to named fields of a block with arbitrary contents | reading the object back from the block with a separate reader |
| C58 | all mutating calls of a table of contents as operations on the TocModel value, a book (4 strings, 3 sequences) as specification | refinement invariant by induction over the history |
| C59 | the comparison loop over the sections | induction on the remaining sections |
| C60 | the extraction of an entry: frames read, decoded and appended; the decoder is a parameter | induction over the frames; the appended pieces compared with the concatenated frames |
| C61 | the final comparison of checksums | composed with C03 |
| C62 | the two loops that cut a path, the tar test | loop invariants; inversion of every path of the extraction |
| C63 | size test, reading and scaling of frame images | arithmetic; all 256 bytes for the scaling of a byte, induction for the image |
| C64 | the argument loop, range parsing, choice of files | an inductive description of the argument list; loop invariants |
| C66 | the template, the conversions %d and %0<w>d of sprintf, the buffer size | decomposition of the format string; printed numbers against their value |
| C65 | main as a function from disk to disk and status | composition of C60-C64, C03 and the load functions; refutations from the same lemmas |
| C67 | the writer with its output column, the 19 save_string functions with what each hands to the writer | column 0 only at the start of a line (invariant of every piece written); composed with C17-C23, C48 |
| C68 | the save_file functions of C52 with the line feed the column decides | the text of a one-element document is the declaration followed by the text of the element, whatever the column |
| C69 | mxml_write_node as the C loop over parent, child and next pointers | induction over the linked tree with its context, fuel counted exactly |
| C70 | mxml_load_data as a loop over the nodes of the heap: parent, first, node pointers as in the C code | simulation of the tree reader (C14) step by step; the open elements are a context with a hole |
| C71 | an inductive grammar of XML documents with the tree each stands for (SpecGrammar), independent of reader and writer; `shows`/`understood` (SpecForeign) | the reader on every piece of the grammar (mutual induction over items and content), composed with the sim-invariance of the load functions; the exceptions as universal refutations |
| C72 | the save strings against the XML grammar of C71 (SpecGrammar) and `is_document`, `is_compact_document` (SpecForeign) | the writer's output on every well-formed tree is a document of the grammar (structural induction, escaping, indentation as inserted blanks), applied to every kind; a control character in a text refutes it universally |
| C73 | the part of XML Schema the published schemas use (SpecSchema: attributes, sequences with minOccurs/maxOccurs, simple content, the patterns, whiteSpace=collapse) and the schemas transcribed; `toc_fits`/`file_fits` (SpecSchema2) say the same in terms of the fields | the saved tree conforms iff the object fits, by grouping the children of every element by name and inverting the printed numbers; conformance does not change under indentation (induction on tidy trees); with C72 this decides every saved string; refutations as corollaries; the published example as a literal document |
| C74 | a pretty printer written from the English description (SpecPretty: four styles, one style sheet) against the writer with the callbacks of WsModel | the callbacks look at names only; every saved tree has a shape (finite tree of names); the callback and the style sheet agree on the shape (computed), hence, by induction on the tree, on the whole text; the final line feed from the column of the writer (C68) |
| C75 | the bodies of the 76 functions as lists of statements (ResourceModel), run by one interpreter that keeps the variables and records what is opened, built, used, closed and deleted; SpecRelease says when such a record is orderly | case analysis of the outcomes of every statement; a decision procedure for the specification, proved correct, run on the resulting record; the same runs are shown to give the disk, strings and objects of FileModel, WriterModel and LoadModel |
| C76 | SessionModel: one step function over an object and a disk, made of the calls of BuildModel, the string saves of WriterModel, the file saves and loads of FileModel; SpecSession: relation over a book and the books on file (SpecBuild, SpecTocXml) | invariant between object, book, disk and saved books; induction over the session; a crash in the last save by C54 |
| C77 | the save and load functions of TocXmlModel composed twice | what is loaded is carried and clean (stripped UTF-8 text is UTF-8 text), so that the normal-form theorems of C17-C22 apply to it |

Every listed property is expressible in the model; none is `not_applicable`.
