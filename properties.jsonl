{"id": "C01", "title": "SHA-1 digest is the FIPS 180-4 digest", "statement": "Initialising a SHA-1 context, feeding it a message in any sequence of pieces and finishing yields exactly the 20 bytes FIPS 180-4 prescribes for the concatenated message, although the implementation keeps its words in (64-bit) unsigned long variables and never masks sums.", "quantifier": "every byte message shorter than 2^61 bytes and every way to cut it into process calls", "why_tests_cant": "Known-answer vectors fix finitely many messages and chunkings; correctness of unmasked 64-bit arithmetic and of the buffering must hold for all of them.", "anchors": ["src/sha1hash.c: afs_sha1_init, afs_sha1_process, afs_sha1_done, compress", "inc/sha1hash.h"]}
{"id": "C02", "title": "SHA-256 digest is the FIPS 180-4 digest", "statement": "Initialising a SHA-256 context, feeding it a message in any sequence of pieces and finishing yields exactly the 32 bytes FIPS 180-4 prescribes for the concatenated message.", "quantifier": "every byte message shorter than 2^61 bytes and every way to cut it into process calls", "why_tests_cant": "Test vectors sample a few messages; the claim is over all messages and chunkings, including block boundaries and the two padding cases.", "anchors": ["src/sha256hash.c: afs_sha256_init, afs_sha256_process (AFS_SHA3_HASH_PROCESS), afs_sha256_done, compress", "inc/sha256hash.h"]}
{"id": "C03", "title": "File checksum covers exactly the requested byte range", "statement": "The checksum-of-a-file functions return the lower-case hexadecimal digest of exactly the bytes [start, start+size) of the file (size -1 meaning up to the end, the whole-file variant meaning start 0), however the operating system splits the reads; without a name or when the file cannot be opened they return no string.", "quantifier": "every file content below 2^61 bytes, every range inside it, every schedule of short reads, both widths of unsigned long", "why_tests_cant": "The 512-byte read loop meets the range boundary at every residue; tests pick a few sizes.", "anchors": ["src/sha1.c: afs_sha1_sum1, afs_sha1_sum2, sum2_private, hash_filehandle", "src/sha256.c: afs_sha256_sum1, afs_sha256_sum2, sum2_private, hash_filehandle", "inc/sha1.h", "inc/sha256.h"]}
{"id": "C04", "title": "Hex rendering of digests is faithful", "statement": "The hexadecimal string of a digest has two lower-case hex digits per byte in order, so two digests give the same string only if they are equal.", "quantifier": "every 20- or 32-byte digest", "why_tests_cant": "2^160 digests; sampling cannot show injectivity.", "anchors": ["src/sha1hash.c: afs_sha1_hash_to_hex_string", "src/sha256hash.c", "src/sha1.c"]}
{"id": "C05", "title": "Merged frame ranges describe exactly the frames of the files", "statement": "The frame ranges computed from a list of files cover a frame if and only if some file occupies it, are sorted by first frame, and no two of them overlap or are adjacent.", "quantifier": "every list of files whose frame interval is non-empty and non-negative, in any order, overlapping or not", "why_tests_cant": "The number of overlap and order patterns is unbounded; tests use a handful of lists.", "anchors": ["src/tocdatareel.c: afs_toc_data_reel_get_frame_ranges, merge, merge_frame_ranges, sort_frame_ranges", "src/framerange.c", "src/frameranges.c"]}
{"id": "C06", "title": "Frame count needed for a file is the ceiling of size over frame capacity", "statement": "For a boxing format with non-zero bytes per frame the number of data frames reported for a file size is the least n with n * bytes_per_frame >= size; with zero bytes per frame it is 0.", "quantifier": "every size_t file size and every unsigned frame capacity", "why_tests_cant": "The failing sizes start at 4 GiB; tests with small files never reach them.", "anchors": ["src/controlframe/boxingformat.c: afs_boxing_format_get_data_frames, get_ceil"]}
{"id": "C07", "title": "Colour depth is the ceiling of log2 of the symbol levels", "statement": "The bits-per-pixel value derived from a frame's number of levels per symbol is the least b with 2^b >= levels, and symbols-per-pixel is 2^b.", "quantifier": "every number of levels per symbol from 1 to 2^31-1", "why_tests_cant": "Tests use the few shipped formats.", "anchors": ["src/controlframe/boxingformat.c: get_bits_per_pixel, get_symbol_per_pixel"]}
{"id": "C08", "title": "Preview sections are distributed over frames without loss", "statement": "For a preview page with a starting section and a section count laid out on frames of a given capacity, the reported frame count is the number of frames that hold at least one section position, and the reported sections-on-frame values over those frames sum to the page's section count, none exceeding the capacity.", "quantifier": "every start section, section count and positive capacity (below the int range)", "why_tests_cant": "Depends on all residues of start and count modulo the capacity.", "anchors": ["src/tocfilepreviewpage.c: afs_toc_file_preview_page_get_frames_count, afs_toc_file_preview_page_get_sections_on_frame"]}
{"id": "C09", "title": "Section overlap test is geometric", "statement": "Two preview sections are reported overlapping if and only if some pixel belongs to both rectangles; the relation is symmetric.", "quantifier": "every pair of sections with non-zero width and height whose right and lower edges fit in 32 bits", "why_tests_cant": "Four coordinates per rectangle: unbounded number of relative positions.", "anchors": ["src/toc/previewsection.c: afs_toc_preview_section_is_overlap"]}
{"id": "C10", "title": "A section list accepts exactly the sections that keep it disjoint", "statement": "Starting from an empty section list, after any sequence of append calls the list holds exactly the accepted sections in order, all valid, with pairwise distinct ids and pairwise non-overlapping; an append is refused iff the section is invalid, repeats an id or overlaps a member.", "quantifier": "every sequence of append calls with arbitrary sections", "why_tests_cant": "History property over unbounded call sequences.", "anchors": ["src/toc/previewsections.c: afs_toc_preview_sections_append, afs_toc_preview_sections_is_valid"]}
{"id": "C11", "title": "Layout definition ids stay unique and look-ups are exact", "statement": "After any sequence of add calls a layout-definition collection has pairwise distinct ids and look-up by id returns the definition added under that id, or nothing when none was.", "quantifier": "every sequence of add calls and every id", "why_tests_cant": "History property over unbounded call sequences.", "anchors": ["src/toc/previewlayoutdefinitions.c: afs_toc_preview_layout_definitions_add_layout_definition, afs_toc_preview_layout_definitions_get_layout_definition_by_id, afs_toc_preview_layout_definitions_has_layout_definition"]}
{"id": "C12", "title": "Used layout definitions are exactly the referenced ones, sorted", "statement": "The used-layout-definitions query on a table of contents returns, sorted by id and without repetition, exactly the definitions whose id is referenced by the first preview page of some preview file that is not a parent file.", "quantifier": "every table of contents", "why_tests_cant": "Unbounded numbers of reels, files and definitions.", "anchors": ["src/tocdata.c: afs_toc_data_get_used_preview_layout_definitions, sort_preview_layout_definitions_by_id"]}
{"id": "C13", "title": "Section images are exact sub-images", "statement": "Extracting the sections of a frame image gives for each section that lies inside the image an image of the section's size whose pixel (i,j) is the frame's pixel (x+i,y+j); sections that do not fit give no image.", "quantifier": "every image, every section list, every pixel", "why_tests_cant": "All sizes and positions.", "anchors": ["src/toc/previewimageutils.c"]}
{"id": "C14", "title": "XML text escaping is lossless and injection-free", "statement": "Writing an XML tree and parsing the result gives the same element structure, attributes and text: no attribute value or text content, whatever characters it holds, can change the structure of the document.", "quantifier": "every tree whose strings are UTF-8 text without control characters", "why_tests_cant": "Adversarial field contents are unbounded.", "anchors": ["thirdparty/minixml/src/mxml-file.c: mxmlSaveAllocString, mxml_write_node, mxml_write_string, mxmlLoadString, mxml_load_data, mxml_parse_element, mxml_get_entity, mxml_string_getc, mxml_add_char"]}
{"id": "C15", "title": "CDATA payloads survive a write and parse", "statement": "Metadata payloads written as CDATA are read back byte for byte.", "quantifier": "every UTF-8 payload", "why_tests_cant": "Only payloads with the terminator sequence break it; tests use benign payloads.", "anchors": ["src/tocmetadatasource.c: afs_toc_metadata_source_save_xml, afs_toc_metadata_source_load_xml", "src/tocdatafilemetadatasource.c", "thirdparty/minixml/src/mxml-node.c: mxmlNewCDATA", "thirdparty/minixml/src/mxml-file.c: mxml_load_data"]}
{"id": "C16", "title": "Compact and indented output load to the same object", "statement": "Saving in compact or in indented form and loading again gives equal objects: the whitespace an indenting callback adds never changes what is loaded.", "quantifier": "every savable object, every indenting callback that emits only blanks and newlines", "why_tests_cant": "Whitespace interacts with every text node and mixed content.", "anchors": ["src/*.c: whitespace_cb", "src/xmlutils.c: afs_xmlutils_get_node_text, afs_xmlutils_string_trim", "thirdparty/minixml/src/mxml-file.c: mxml_write_ws"]}
{"id": "C17", "title": "File entry save/load round trip", "statement": "Saving a valid file entry to XML text and loading it back gives an entry equal (as the API's equality defines it) to the original, for entries in normal form; for any valid entry the result is the original with the documented normalisations only.", "quantifier": "every valid file entry whose strings are UTF-8 text, in compact or indented form", "why_tests_cant": "Field values, optional parts and nested preview/metadata combine without bound.", "anchors": ["src/tocfile.c: afs_toc_file_save_xml, afs_toc_file_save_string, afs_toc_file_load_xml, afs_toc_file_load_string, afs_toc_file_equal"]}
{"id": "C18", "title": "File list save/load round trip", "statement": "Saving a list of valid file entries and loading it back gives a list of the same length and order whose elements are the saved entries up to the documented normalisations; entries in normal form come back equal.", "quantifier": "every list of valid file entries whose names and dates are not blank, in compact or indented form", "why_tests_cant": "Unbounded lists.", "anchors": ["src/tocfiles.c: afs_toc_files_save_xml, afs_toc_files_load_xml, afs_toc_files_equal"]}
{"id": "C19", "title": "Preview and page round trip", "statement": "Saving a valid preview (its resolution and its pages with layout id, sections, frames, dimension and overlap) and loading it back gives the same preview, when every pair is both zero or both non-zero and the resolution is known or -1; otherwise the half pairs become zero and the resolution -1, and nothing else changes.", "quantifier": "every valid preview and every page", "why_tests_cant": "Unbounded page lists and field values.", "anchors": ["src/tocfilepreview.c: afs_toc_file_preview_save_xml, afs_toc_file_preview_load_xml", "src/tocfilepreviewpage.c: afs_toc_file_preview_page_save_xml, afs_toc_file_preview_page_load_xml"]}
{"id": "C20", "title": "Preview layout round trip", "statement": "Saving valid preview sections, layout definitions and collections of definitions and loading them back gives equal objects (names and ids without outer blanks).", "quantifier": "every valid section list with different ids, definition, and collection with different non-blank ids", "why_tests_cant": "Unbounded lists and field values.", "anchors": ["src/toc/previewsection.c", "src/toc/previewsections.c", "src/toc/previewlayoutdefinition.c", "src/toc/previewlayoutdefinitions.c"]}
{"id": "C21", "title": "Metadata round trip", "statement": "Saving valid file metadata or table-of-contents metadata (sources with ids, format ids, payload and tags) and loading it back gives an equal object, the format id of a source without payload excepted.", "quantifier": "every valid metadata object whose payloads do not contain the CDATA terminator, and every tag list whose tags are non-empty, free of semicolons and of outer blanks", "why_tests_cant": "Unbounded source lists and payloads.", "anchors": ["src/tocdatafilemetadata.c", "src/tocdatafilemetadatasource.c", "src/tocmetadata.c", "src/tocmetadatasource.c"]}
{"id": "C22", "title": "Table of contents round trip", "statement": "Saving a valid table of contents (version, type, ids, metadata, layout definitions, reels with files) and loading it back gives an equal table of contents when its parts are in normal form, and the documented normalisations of it otherwise.", "quantifier": "every valid table of contents and every table of contents object it is loaded into", "why_tests_cant": "The whole object graph is unbounded.", "anchors": ["src/tocdata.c: afs_toc_data_save_xml, afs_toc_data_load_xml, afs_toc_data_save_string, afs_toc_data_load_string", "src/tocdatareel.c", "src/tocdatareels.c"]}
{"id": "C23", "title": "Control data round trip", "statement": "Saving control data (administrative and technical metadata, with table-of-contents and application file lists) and loading it back gives equal control data; a missing part means nothing is saved.", "quantifier": "every control data object with both parts present", "why_tests_cant": "Unbounded field values and lists.", "anchors": ["src/controldata.c", "src/administrativemetadata.c", "src/technicalmetadata.c"]}
{"id": "C24", "title": "Clone gives an equal object and equality is an equivalence", "statement": "For every kind of object, a clone compares equal to its original, and the API's equality is reflexive, symmetric and transitive.", "quantifier": "every object and every triple of objects", "why_tests_cant": "Pairs and triples of unbounded objects.", "anchors": ["src/*.c: *_clone, *_equal"]}
{"id": "C25", "title": "Invalid entries are never stored or written", "statement": "After any sequence of add calls on an initially empty list of files, metadata sources, reels or preview pages every stored element is valid, and saving an invalid object reports failure and writes nothing.", "quantifier": "every call history and every object", "why_tests_cant": "History property.", "anchors": ["src/tocfiles.c: afs_toc_files_add_toc", "src/tocdatareel.c: afs_toc_data_reel_add_file", "src/tocdatareels.c: afs_toc_data_reels_add_reel", "src/tocmetadata.c: afs_toc_metadata_add_source", "src/tocfilepreview.c: afs_toc_file_preview_add_page"]}
{"id": "C26", "title": "Frame offsets shift the selected section and nothing else", "statement": "Adding a frame offset to files of the selected kinds moves exactly their set frame positions by the offset, keeps every duration, byte position, validity and all other fields, leaves unselected data untouched, and two successive offsets act as their sum.", "quantifier": "every table of contents, offset without overflow and selection mask", "why_tests_cant": "All nested lists and masks; composition law.", "anchors": ["src/tocfile.c: afs_toc_file_add_frame_offset", "src/tocfiles.c: afs_toc_files_add_frame_offset", "src/tocfilepreview.c: afs_toc_file_preview_add_frame_offset", "src/tocdatareel.c: afs_toc_data_reel_add_frame_offset", "src/tocdata.c: afs_toc_data_add_frame_offset"]}
{"id": "C27", "title": "Reported first and last frame bound every file", "statement": "The first and last frame reported for a list of files bound the frames of every file of the requested kind, and the frame count is last - first + 1.", "quantifier": "every list of valid files", "why_tests_cant": "Depends on list order; tests use ordered lists.", "anchors": ["src/tocfiles.c: afs_toc_files_get_first_frame, afs_toc_files_get_last_frame, afs_toc_files_get_duration_frames", "src/tocdatareel.c: afs_toc_data_reel_first_frame, afs_toc_data_reel_last_frame, afs_toc_data_reel_frame_count"]}
{"id": "C28", "title": "File classification is a partition", "statement": "Every file is exactly one of parent, child-with-parent or standalone, and the parent-files and child-files queries on a reel together return each matching file exactly once. Adding a type to a file makes it a file of that type and changes nothing else.", "quantifier": "every reel and type mask", "why_tests_cant": "All files and masks.", "anchors": ["src/tocfile.c: afs_toc_file_is_parent, afs_toc_file_has_parent, afs_toc_file_is_standalone", "src/tocdatareel.c: afs_toc_data_reel_get_parent_files, afs_toc_data_reel_get_child_files, afs_toc_data_reel_get_standalone_files", "src/tocfile.c: afs_toc_file_add_type"]}
{"id": "C29", "title": "File look-ups are exact and safe", "statement": "Looking a file up by id or unique id returns the first file carrying it and nothing if there is none, and never crashes.", "quantifier": "every table of contents and key", "why_tests_cant": "All contents including absent optional fields.", "anchors": ["src/tocdatareel.c: afs_toc_data_reel_get_file_by_id, afs_toc_data_reel_get_file_by_unique_id", "src/tocdata.c: afs_toc_data_get_file_by_id, afs_toc_data_get_file_by_unique_id"]}
{"id": "C30", "title": "Reel size is the total size of its files", "statement": "The size in bytes reported for a reel equals the sum of the sizes of its files.", "quantifier": "every reel with valid digital files", "why_tests_cant": "Fails only for files spanning frames; tests use one-frame files.", "anchors": ["src/tocdatareel.c: afs_toc_data_reel_size_bytes"]}
{"id": "C31", "title": "Text trimming removes exactly the surrounding blanks", "statement": "Text read from an element is the stored text without leading and trailing spaces, carriage returns and line feeds; inner characters are untouched and trimming twice changes nothing; the trimming never touches memory outside the string.", "quantifier": "every string", "why_tests_cant": "All strings, including empty and all-blank ones.", "anchors": ["src/xmlutils.c: afs_xmlutils_string_cut, afs_xmlutils_string_trim, afs_xmlutils_get_node_text"]}
{"id": "C32", "title": "Numbers survive printing and parsing", "statement": "Integers written to XML as element text or attributes (plain, zero-padded or 64-bit) are read back as the same integer.", "quantifier": "every int, unsigned int below 2^31 and 64-bit integer", "why_tests_cant": "2^64 values.", "anchors": ["src/xmlutils.c: afs_xmlutils_add_new_int_node, afs_xmlutils_add_new_uint64_node, afs_xmlutils_get_integer_element, afs_xmlutils_get_integer_attribute, afs_xmlutils_get_unsigned_integer_attribute", "src/tocfile.c: save_data_v2"]}
{"id": "C33", "title": "Element search visits exactly the descendants in document order", "statement": "Repeatedly asking for the next element with a given name below a node enumerates exactly the descendants with that name, each once, in document order, and then stops; it never leaves the subtree.", "quantifier": "every tree, subtree and name", "why_tests_cant": "All tree shapes.", "anchors": ["thirdparty/minixml/src/mxml-search.c: mxmlWalkNext, mxmlFindElement"]}
{"id": "C34", "title": "XML loading terminates without touching memory outside its input", "statement": "Parsing any NUL-terminated string terminates with a tree or a failure and never reads beyond the terminator nor writes beyond its buffers.", "quantifier": "every byte string", "why_tests_cant": "Adversarial inputs are unbounded.", "anchors": ["thirdparty/minixml/src/mxml-file.c: mxml_load_data, mxml_string_getc, mxml_add_char, mxml_get_entity"]}
{"id": "C35", "title": "Saved text is complete", "statement": "The string returned by a save call is the whole serialisation, whatever its length: the fixed first buffer never truncates it. Saving to a caller's buffer of any size keeps the text as far as it fits, always terminates it and leaves the bytes behind untouched, and returns the full length.", "quantifier": "every tree whose serialisation is shorter than 2 GiB", "why_tests_cant": "Boundary at the internal buffer size.", "anchors": ["thirdparty/minixml/src/mxml-file.c: mxmlSaveAllocString, mxmlSaveString, mxml_string_putc"]}
{"id": "C36", "title": "Table text never overflows its buffer", "statement": "Rendering the file, location, metadata and layout tables writes no more bytes than were allocated.", "quantifier": "every valid list of files / definitions", "why_tests_cant": "Needs unusual widths (e.g. six-digit pixel dimensions) to fail.", "anchors": ["src/tocfiles.c: afs_toc_files_save_as_table and location / metadata tables", "src/toc/previewlayoutdefinitions.c: afs_toc_preview_layout_definitions_save_as_table"]}
{"id": "C37", "title": "Reference counting frees exactly once and never early", "statement": "An object stays alive as long as the number of frees is smaller than the number of references taken (creation plus new references) and is released exactly when they become equal, together with everything it owns.", "quantifier": "every sequence of create, new-reference and free calls in which no handle is freed twice", "why_tests_cant": "History property.", "anchors": ["src/*.c: *_create, *_get_new_reference, *_free"]}
{"id": "C38", "title": "Zero reference frame geometry", "statement": "The reference bar of a zero reference frame of non-zero size lies completely inside the frame, starts at the horizontal centre, and the rendered image is black exactly on it.", "quantifier": "every frame width and height", "why_tests_cant": "Floating-point rounding over all sizes.", "anchors": ["src/zeroreferenceframe.c"]}
{"id": "C39", "title": "Entity decoding finds every supported entity", "statement": "A character entity is decoded exactly if it is one of the 252 of HTML 4.01 or one of apos, brkbar, die, hibar and Dstrok, and to the character the standard gives it; the four entities the writer emits decode to the characters they stand for; unknown names are rejected.", "quantifier": "every entity name", "why_tests_cant": "Binary search over an ordered table: correctness depends on the order of all entries.", "anchors": ["thirdparty/minixml/src/mxml-entity.c: _mxml_entity_cb, mxmlEntityGetName, mxmlEntityGetValue"]}
{"id": "C40", "title": "Legacy data form round trip", "statement": "Saving a digital file entry in the older (v1) data form and loading it gives an equal entry.", "quantifier": "every valid digital file entry", "why_tests_cant": "Depends on which fields the older form carries.", "anchors": ["src/tocfile.c: save_data_v1, afs_toc_file_load_data_v1, afs_toc_file_save_xml"]}
{"id": "C41", "title": "Tags survive joining and splitting", "statement": "Setting a source's tags from a semicolon-separated string and reading them back gives the same string, and tag strings are built within their allocated buffer.", "quantifier": "every tag list without semicolons", "why_tests_cant": "Unbounded lists.", "anchors": ["src/tocmetadatasource.c: afs_toc_metadata_source_set_tags, afs_toc_metadata_source_get_tags"]}
{"id": "C42", "title": "Totals of a table of contents", "statement": "The file count of a table of contents is the number of files in its reels, the frame count is the sum of its reels' frame counts, and its first and last frame are those of the first and last reel.", "quantifier": "every table of contents", "why_tests_cant": "Unbounded number of reels and files.", "anchors": ["src/tocdata.c: afs_toc_data_get_file_count, afs_toc_data_get_frame_count, afs_toc_data_get_first_frame, afs_toc_data_get_last_frame"]}
{"id": "C43", "title": "Access by index", "statement": "Fetching an element by index from any list (frame ranges, sections, layout definitions, metadata sources, pages, files, reels) returns the element stored in that place, and nothing for every index past the end or for NULL; the reported number of elements is the number of elements (below 2^32).", "quantifier": "every container and every unsigned index", "why_tests_cant": "Unbounded containers and indices.", "anchors": ["src/toc/previewlayoutdefinition.c: afs_toc_preview_layout_definition_get_section", "src/tocdatareel.c: afs_toc_data_reel_get_file_by_index", "src/frameranges.c: afs_frame_ranges_get_frame_range, afs_frame_ranges_get_count, afs_frame_ranges_add_frame_range", "src/toc/previewsections.c: afs_toc_preview_sections_get, afs_toc_preview_sections_size", "src/toc/previewlayoutdefinitions.c: afs_toc_preview_layout_definitions_get_layout_definition_by_index", "src/tocfiles.c: afs_toc_files_get_toc, afs_toc_files_get_tocs_count", "src/tocdatareels.c: afs_toc_data_reels_get_reel", "src/tocfilepreview.c: afs_toc_file_preview_get_page", "src/tocmetadata.c: afs_toc_metadata_get_source", "src/tocdatafilemetadata.c: afs_toc_data_file_metadata_get_source"]}
{"id": "C44", "title": "Checksum requests outside the file are refused", "statement": "Asking for the checksum of a byte range that does not lie inside the file, or of a file that cannot be read, returns no string.", "quantifier": "every file content, start and size, and every schedule of read errors", "why_tests_cant": "The boundary cases (size -1 with a start past the end, sizes below -1, read errors half way) form an unbounded family; some are undefined behaviour that a test may not notice.", "anchors": ["src/sha1.c: sum2_private, hash_filehandle", "src/sha256.c: sum2_private, hash_filehandle"]}
{"id": "C45", "title": "Equality and clones of control data", "statement": "Comparing administrative metadata, technical metadata or control data is an equivalence relation; two objects are equal exactly when all string fields agree (a missing string differs from an empty one), their configurations have the same classes and properties, and their file lists are equal; a clone is equal to its original.", "quantifier": "every administrative metadata, technical metadata and control data object", "why_tests_cant": "Unbounded strings, tables and lists; transitivity ranges over triples.", "anchors": ["src/controldata.c: afs_control_data_is_equal, afs_control_data_clone", "src/administrativemetadata.c: afs_administrative_metadata_is_equal, afs_administrative_metadata_clone", "src/technicalmetadata.c: afs_technical_metadata_is_equal, afs_technical_metadata_clone"]}
{"id": "C46", "title": "Boxing format equality, clones and derived quantities", "statement": "Boxing formats that were given configurations compare equal exactly when the configurations are equal; comparing any formats a client holds is safe and an equivalence; a clone equals its original; the bits per pixel, symbols per pixel and bytes per frame agree with the frame built from the configuration, and are all 0 when none can be built.", "quantifier": "every configuration, every boxing library that meets the stated contract, every history of creation, setting and cloning", "why_tests_cant": "Equality and derived sizes must hold for every configuration; the failing cases (a name without a frame, a product beyond 2^32, a format initialised in place) do not occur in the supplied configurations.", "anchors": ["src/controlframe/boxingformat.c: afs_boxing_format_equal, afs_boxing_format_clone, afs_boxing_format_init, initialize_instance, get_bytes_per_frame, get_bits_per_pixel, get_symbol_per_pixel, get_scaling_factor"]}
{"id": "C47", "title": "Setters copy the value given and release what was there", "statement": "A setter of a string, preview, metadata or configuration field releases what the field held, stores an independent copy of the value (or nothing for NULL) and leaves the client's references, the value and every other object as they were.", "quantifier": "every setter, every object and value alive after any history of calls", "why_tests_cant": "Ownership after every history and every aliasing of value and object; a use after free may go unnoticed in a test.", "anchors": ["src/tocfile.c: afs_toc_file_set_name, afs_toc_file_set_preview, afs_toc_file_set_metadata", "src/administrativemetadata.c: afs_administrative_metadata_set_*", "src/tocdata.c: afs_toc_data_set_*", "src/tocdatareel.c: afs_toc_data_reel_set_id", "src/controlframe/boxingformat.c: afs_boxing_format_set_config"]}
{"id": "C48", "title": "Indented saving is safe and loads the same", "statement": "Saving any object in indented (non-compact) form succeeds whenever the compact form does, never crashes, and the indented text loads back as the same object as the compact text. (True for sections, layout definitions, pages, previews, metadata, reels, the table of contents, control data and its parts, and a single file saved to a string; false for a single file saved to disk and for file lists, whose indented save dereferences NULL for every object.)", "quantifier": "every object that can be saved, every library indentation callback, with and without the XML declaration", "why_tests_cant": "The callbacks inspect the names of up to three ancestors of every node; a test covers the shape of one object, and the crash of the unguarded callbacks depends on how the tree is rooted, not on the data.", "anchors": ["src/*.c: whitespace_cb", "src/tocfile.c: afs_toc_file_save_file", "src/tocfiles.c: afs_toc_files_save_string, afs_toc_files_save_file", "src/controldata.c: whitespace_cb", "thirdparty/minixml/src/mxml-file.c: mxml_write_node, mxml_write_ws"]}
{"id": "C49", "title": "Frame count of a preview", "statement": "The frame count reported for a preview is the length of the smallest interval of reel frames that contains every section of every page under the given layout definitions; with no pages it is 0, and a page whose layout is unknown or empty makes the call fail with count 0.", "quantifier": "every preview (any number of pages, overlapping or out of order) and every list of layout definitions", "why_tests_cant": "Unbounded number of pages, start sections and layouts.", "anchors": ["src/tocfilepreview.c: afs_toc_file_preview_get_frames_count", "src/tocfilepreviewpage.c: afs_toc_file_preview_page_get_frames_count", "src/tocfiles.c: afs_toc_files_get_last_frame"]}
{"id": "C50", "title": "XML documents stay well linked", "statement": "Creating, adding, moving and removing XML nodes keeps the document a tree: after each call every node's parent, previous, next, first-child and last-child links are exactly those of the intended tree (new nodes last, added nodes at the requested place, a moved node gone from its old place), and no node outside the documents involved changes. Building any XML tree call by call yields a document showing that tree in document order. (Adding a node behind itself breaks this.)", "quantifier": "every well linked document of any shape, every node in it, every position, every address the allocator returns", "why_tests_cant": "Any number of nodes and nesting; five mutually dependent links per node, with different code for first, last, only and inner children.", "anchors": ["thirdparty/minixml/src/mxml-node.c: mxmlAdd, mxmlRemove, mxml_new, mxmlNewElement, mxmlNewOpaque"]}
{"id": "C51", "title": "Deleting an XML document frees every node once", "statement": "Deleting the root of a document frees every node of it exactly once, never reads or frees a node that is already freed, and leaves all other memory alone; deleting an inner node frees exactly its subtree and leaves the rest well linked. Building a document and deleting it leaves the heap as it was.", "quantifier": "every well linked document and every node in it", "why_tests_cant": "The deletion is an iterative walk that destroys the links it follows; depth and width are unbounded.", "anchors": ["thirdparty/minixml/src/mxml-node.c: mxmlDelete, mxml_free, mxmlRemove"]}
{"id": "C52", "title": "Saving to and loading from files", "statement": "Saving an object to a file and loading that file gives the object back exactly as saving to and loading from a string does, on every disk, compactly or indented; no other file changes. A file that cannot be opened is reported and changes nothing, and a save that reports failure leaves the existing file as it was (false for file entries and technical metadata: an invalid entry empties the file first). Loading a file of well-formed UTF-8 gives what loading its text gives.", "quantifier": "every object of each of the 19 kinds (boxing format configuration files included) that can be saved, every file name, every previous content of the disk, every file content", "why_tests_cant": "Unbounded objects and contents; the file reader is separate code from the string reader and must agree with it on every text.", "anchors": ["thirdparty/minixml/src/mxml-file.c: mxml_file_getc, mxmlLoadFile, mxmlSaveFile", "src/*.c, src/toc/*.c: *_save_file, *_load_file", "src/controlframe/boxingformat.c: afs_boxing_format_save_config_file, afs_boxing_format_load_config_file"]}
{"id": "C53", "title": "UTF-16 files", "statement": "A document file encoded as UTF-16 with a byte order mark, big or little endian, loads as the same document as the UTF-8 file with the same characters (false for characters above U+FFFF whose code is 1023 modulo 1024).", "quantifier": "every sequence of characters", "why_tests_cant": "Every character and every length; the error is in one of 1024 second surrogates.", "anchors": ["thirdparty/minixml/src/mxml-file.c: mxml_file_getc"]}
{"id": "C54", "title": "Interrupted saves", "statement": "When a save to a file is interrupted (crash, full disk, cut transfer) so that only a beginning of the text is in the file, loading that file fails, gives the saved object, or gives a recognisably empty object of that kind: it never gives an object with only a part of its entries or with cut field values. Preview sections, layout definitions, metadata sources, reels and technical metadata are never even empty: whole or refused. (The stronger wish, old or new content after every crash, is false: the old content is lost, and lists, tables of contents, file entries and previews may load without an error as empty; control data may load with its technical part missing.)", "quantifier": "every object of each of the 19 kinds (boxing format configuration files included), compact or indented, every byte at which the save is interrupted, every previous disk; for the reader, every text and every beginning of it", "why_tests_cant": "Every cut point of every document: one has to follow the parser at every state at which the input can end.", "anchors": ["thirdparty/minixml/src/mxml-file.c: mxml_load_data, mxml_parse_element, mxml_get_entity, mxml_file_getc", "src/*.c, src/toc/*.c: *_save_file, *_load_file, *_load_xml", "src/controlframe/boxingformat.c: afs_boxing_format_save_config_file, afs_boxing_format_load_config_file"]}
{"id": "C55", "title": "Loading into an object in use", "statement": "The load functions take an existing object. A load into a new object gives the object described by the document, and fails when a required element or attribute is missing. Loading into an object that already holds something: section, layout definition, administrative metadata, boxing format and control data are replaced completely by a successful load (a table of contents too, when the document has the three texts); lists (sections, layout definitions, pages, metadata, files, reels) keep what they have and get the acceptable leading elements of the document appended, succeeding exactly when all were appended, so that their invariants (valid elements, unique ids, no overlap) survive every history of successful and failed loads; for the other kinds the kept fields are stated exactly. A text that is empty or cannot be parsed never changes the object. (The wish that a failed load changes nothing, and that a successful one leaves nothing of the old object, is false for most kinds.)", "quantifier": "every object of each of the 19 kinds, every document (parsed text), every history of loads; for documents saved by the library, every saved object and every old object", "why_tests_cant": "All pairs of an old object and a document, and all histories of loads: the interesting cases are fields the document does not mention and failures half way.", "anchors": ["src/*.c, src/toc/*.c, src/controlframe/boxingformat.c: *_load_xml, *_load_string", "src/toc/previewlayoutdefinition.c: afs_toc_preview_layout_definition_create4", "src/toc/previewsections.c: afs_toc_preview_sections_create2", "src/tocmetadata.c: afs_toc_metadata_create3"]}
{"id": "C56", "title": "Objects and threads", "statement": "Threads that share objects and use only references they have: when no two calls that get or free the same object overlap (a lock around the calls, or every thread keeps to its own objects), no schedule reads, writes or releases a released object, and every object exists exactly as long as some thread has a reference to it, with that number as its count. (Without a lock this is false for every kind of object: overlapping frees can leak the object or touch it after its release, overlapping gets can release it while a reference exists.)", "quantifier": "every number of threads and objects, every program of get and free calls each thread makes, every interleaving of the single memory accesses", "why_tests_cant": "The failing interleavings depend on the scheduler; the property is about all of them.", "anchors": ["src/*.c, src/toc/*.c, src/controlframe/boxingformat.c: *_get (reference_count++), *_free (--reference_count)"]}
{"id": "C57", "title": "New objects", "statement": "Whatever was in the memory it is given, every constructor and initialiser writes every declared field: the object has exactly the values passed (each in its own place), empty values for the others, and one reference. (False for the public initialiser of a preview layout definition, which leaves the sections unwritten.)", "quantifier": "every previous content of the memory, all argument values, the 20 object kinds and all their create/init variants", "why_tests_cant": "An unwritten field often happens to be zero in a test; the claim is for any garbage.", "anchors": ["src/*.c, src/toc/*.c: *_create*, *_init*"]}
{"id": "C58", "title": "Building a table of contents", "statement": "A table of contents made by the API behaves as four strings and three sequences: every history of set, add and frame offset calls gives the answers and the contents that a simple book-keeping of accepted elements gives (invalid reels, sources and layouts and layouts with a used id are refused and change nothing; adding a list of layouts takes the leading ones up to the first used id), the counts and the access by index show exactly these sequences, and the table is valid exactly when its version, job and reel are named and its index type is job or reel.", "quantifier": "every sequence of calls with any arguments whose numbers fit", "why_tests_cant": "All call histories.", "anchors": ["src/tocdata.c: afs_toc_data_add_reel, afs_toc_data_add_metadata_source, afs_toc_data_add_preview_layout_definition, afs_toc_data_add_preview_layout_definitions, afs_toc_data_set_*, afs_toc_data_add_frame_offset, afs_toc_data_get_*, afs_toc_data_is_valid"]}
{"id": "C59", "title": "Layouts with equal sections", "statement": "The question whether the sections of a layout all have the same size is answered with true exactly when any two of its sections have the same width and height.", "quantifier": "every layout definition (any number of sections below 2^32)", "why_tests_cant": "All section lists.", "anchors": ["src/toc/previewlayoutdefinition.c: afs_toc_preview_layout_definition_is_section_size_equal"]}
{"id": "C60", "title": "Extraction of a file by the recovery tool", "statement": "The recovery tool writes, for a table-of-contents entry, exactly the bytes from the start byte of the first data frame to the end byte of the last frame, whatever the output file held before, and reports success when the entry's checksum is theirs. Exact limit: a piece of a single byte of a longer frame (start on the last byte of the first frame, end on byte 0 of the last, or start = end) makes it write the whole frame.", "quantifier": "every entry, every number and size of frames, every decoder (stripes of any length), every placement", "why_tests_cant": "All placements, frame sizes and decoders.", "anchors": ["tests/assemblytool/unboxingtool.c: boxing_unbox_data_frame_file, save_output_data, get_input_file_name"]}
{"id": "C61", "title": "Success means the right checksum", "statement": "If the recovery tool reports success for an entry, the output file is there and its SHA-1 is the checksum of the entry, whatever the images and the decoder gave.", "quantifier": "every entry, every disk, every decoder", "why_tests_cant": "All disks and decoders, including faulty ones.", "anchors": ["tests/assemblytool/unboxingtool.c: boxing_unbox_data_frame_file"]}
{"id": "C62", "title": "Names of recovered files", "statement": "The recovered file is named after the last part of the entry's name (a tar part of a parent file by its stem with .tar); the name never has a directory part; extraction changes no other file, whatever its result. Refuted: entries in different directories do not get different files; an entry without a name is undefined behaviour.", "quantifier": "every entry, every path with / or \\\\ separators", "why_tests_cant": "All paths and all outcomes.", "anchors": ["tests/assemblytool/unboxingtool.c: prepare_file_name, get_file_name_from_path, get_file_name_with_extension_from_path, check_tar_format"]}
{"id": "C63", "title": "Reading frame images", "statement": "The size of a frame file determines its depth (1, 2, 4 or 8 bits) and the presence of 64 extra bytes, except for images of 128, 256 or 512 pixels, where it is ambiguous; every pixel of the image read is the sample at its place, scaled so that 0 stays 0 and the largest value becomes 255; a missing file or a file of another size gives no image.", "quantifier": "every width and height with a multiple of 8 and fewer than 2^29 pixels, every file content", "why_tests_cant": "All image sizes and contents.", "anchors": ["tests/assemblytool/unboxingtool.c: read_input_file, check_frame_size, normalize_image_data, get_max_decimal_value"]}
{"id": "C64", "title": "Command line of the recovery tool", "statement": "Options in any order and number are understood as documented, a later one replacing an earlier one; numbers and ranges after -read mean the numbers they denote; the files extracted are the existing ones among those asked for, each once, in the order asked, or all if none is named; without input names or image size the tool stops and touches nothing. Refuted: a range ending with 2147483647 is undefined behaviour.", "quantifier": "every argument list made of the options, every number of files", "why_tests_cant": "All argument lists.", "anchors": ["tests/assemblytool/main.c: unboxing_get_command_line_parameters, boxing_is_digit, boxing_is_range, boxing_get_substring, boxing_check_files_numbers, boxing_value_is_present"]}
{"id": "C65", "title": "A whole recovery run", "statement": "When the control frame decodes, its control data names a boxing format and a table of contents that is on the disk (or on the reel, with an older file of that name on the disk), the run extracts every chosen file whose frames are intact, exits with 0 and changes only these files, the control file and the table of contents. When no format decodes the control frame it exits with -1 and does not use an older control file. A chosen file that is damaged (other bytes than its checksum says, or a decoder failure) or that cannot be created does not keep the others from being recovered; a damaged one is left on the disk as decoded, and the exit status is 0 all the same. Refuted: when no file with the name of the table of contents exists yet (a first run) or the control data has no table of contents, the behaviour is undefined; when the first table of contents cannot be recovered and the second is present, the tool gives up.", "quantifier": "every reel, every list of control frame formats, every choice of files", "why_tests_cant": "All reels and disks.", "anchors": ["tests/assemblytool/main.c: main", "tests/assemblytool/unboxingtool.c: boxing_unbox_control_frame_file"]}
{"id": "C66", "title": "Names of the frame files", "statement": "In the template of the frame names, *d stands for the decimal number of the frame and *0<w>d for the number with zeros in front up to w characters; different frames get different names. Exact limit: a width above 12 plus the number of its own digits overflows the name buffer.", "quantifier": "every template with one such place, every frame number", "why_tests_cant": "All templates and numbers.", "anchors": ["tests/assemblytool/unboxingtool.c: get_input_file_name, change_symbols"]}
{"id": "C67", "title": "Saving to a string and loading the string", "statement": "Each save_string function (table of contents and its parts, control data and its parts, boxing formats, file entries in both data forms) on a valid object returns a UTF-8 text that ends with a line feed and that the matching load_string function loads back as the object (in its normal form), compactly and indented; on an invalid object it returns NULL. Lists of files only compactly: the indented save crashes (C48).", "quantifier": "every object of every kind, compact or indented", "why_tests_cant": "All objects and texts.", "anchors": ["src/*.c, src/toc/*.c, src/controlframe/boxingformat.c: *_save_string, *_load_string", "thirdparty/minixml/src/mxml-file.c: mxml_write_node, mxml_write_ws, mxmlSaveAllocString"]}
{"id": "C68", "title": "Saving to a string and to a file give the same document", "statement": "For every object, valid or not, save_file to a file that can be opened and save_string succeed or fail (or crash) together, and the file then holds exactly the returned string, preceded by the XML declaration for layout collections, metadata lists and file entries, whose strings leave it out; no other file changes. Refuted for the indented save of a file entry, which works to a string and crashes to a file.", "quantifier": "every object of 18 kinds, every disk and file name, compact or indented", "why_tests_cant": "All objects.", "anchors": ["src/*.c, src/toc/*.c: *_save_string, *_save_file", "thirdparty/minixml/src/mxml-file.c: mxmlSaveFile, mxmlSaveAllocString"]}
{"id": "C69", "title": "The writer follows the links of the document", "statement": "Writing a linked document, or a node of it without following siblings, with any indentation callback that looks at the node, its subtree and the names of its ancestors, ends within two steps per node, touches only nodes of the document, and writes exactly the text of the tree that the links show; in particular the document made by the calls of a save function.", "quantifier": "every linked document, node, callback and memory layout", "why_tests_cant": "All heaps and documents.", "anchors": ["thirdparty/minixml/src/mxml-file.c: mxml_write_node", "thirdparty/minixml/src/mxml-node.c"]}
{"id": "C70", "title": "Reading builds exactly the document and frees it on failure", "statement": "Reading a string or a file into linked nodes touches only nodes it allocated. When the text is accepted the result is the root of a well-linked document that shows exactly the tree of the text (names, attributes, texts, order), made of the allocated nodes and no others; name, attributes, text, children and searches from any node answer what the tree says; read and delete leaves memory as before. When it is rejected NULL is returned and at most one node stays allocated: a malformed start tag of the first element, or text between the end of the root and another tag (leak, refuted); none when an end tag is missing.", "quantifier": "every text, every file, every memory and every sequence of addresses returned by calloc", "why_tests_cant": "All inputs, heaps and allocation results.", "anchors": ["thirdparty/minixml/src/mxml-file.c: mxml_load_data, mxmlLoadString, mxmlLoadFile", "thirdparty/minixml/src/mxml-node.c: mxml_new, mxmlAdd, mxmlDelete", "thirdparty/minixml/src/mxml-get.c: mxmlGetElement, mxmlGetOpaque, mxmlGetFirstChild", "thirdparty/minixml/src/mxml-attr.c: mxmlElementGetAttr"]}
{"id": "C71", "title": "Documents written or edited by other XML tools are understood", "statement": "Every XML 1.0 document in UTF-8 (any quotes, blanks, attribute order, character references and the five predefined entities, comments, processing instructions, CDATA sections, a byte order mark, an XML or document type declaration) is read as the tree it stands for, and loaded as the same object as any other document that shows the same elements, attribute values and texts as the saved form of a valid object of any of the sixteen kinds of the table of contents and the four of the control data. Exceptions, each proved: an empty comment, a comment beside the document element of a document without declaration, attribute names beginning beyond ASCII, references of more than 62 digits, line ends (not normalised), and text behind a comment or inside CDATA in an element that holds a plain text.", "quantifier": "every document of the grammar, every valid object", "why_tests_cant": "All spellings of all documents: infinitely many texts per object.", "anchors": ["thirdparty/minixml/src/mxml-file.c: mxml_load_data, mxml_parse_element, mxml_get_entity", "src/*.c: the load_string and load_xml functions"]}
{"id": "C72", "title": "What is saved is XML that other tools can read", "statement": "The string made by the save function of every valid object of the sixteen kinds of the table of contents, and of administrative metadata, technical metadata and boxing formats, whose texts are XML text, is, indented or not, a document of the XML grammar (well-formed, one document element, properly nested and escaped) that shows exactly the saved elements, attributes and texts; without indentation it stands for exactly that tree with not a blank added. Refuted: control data as a whole is saved as two elements behind the declaration, which is not an XML document; and with a control character in a text the save function still succeeds and the result is not an XML document.", "quantifier": "every valid object, indented or compact", "why_tests_cant": "All objects and texts; the grammar is that of the standard, not of the reader in this repository.", "anchors": ["thirdparty/minixml/src/mxml-file.c: mxml_write_node, mxml_write_string, mxmlSaveAllocString", "src/*.c: the save_string and save_xml functions"]}
{"id": "C73", "title": "Saved documents against the published XML schemas", "statement": "The repository publishes XML schemas for its documents (xsd/). The document saved for a valid table of contents (or a file entry), compact or indented, is an XML document that the published schema accepts exactly when: the version has the form of the schema, there are layouts and reels, every metadata source has tags, a file and no inline data, every reel has files and every file is digital, has a unique id, a date of the form of the schema, a size below 2^32, a parent id not below -2, pages whose layout id is a number and metadata sources with data and non-negative ids. Refuted in general: valid objects outside these limits (preview-only files, files of 4 GiB and more, layouts named by words as in the schema's own example, missing tags, no layouts, the old file form) are saved without any error as documents the schema rejects; no saved control data is ever of the published type; and the example the schema itself gives is accepted by the schema but refused by the load function because its metadata source has no id.", "quantifier": "every valid table of contents and file entry whose texts are XML text, both indentations; every control data; every document equal to the saved one up to indentation", "why_tests_cant": "The acceptance by the schema depends on every field of every file of every reel; a test compares a few samples with a validator.", "anchors": ["xsd/tocdata.xsd", "xsd/tocdatafile.xsd", "xsd/control_frame.xsd", "xsd/boxing_format.xsd", "src/tocdata.c: afs_toc_data_save_string, afs_toc_data_save_xml, afs_toc_data_load_xml", "src/tocfile.c: afs_toc_file_save_string, afs_toc_file_save_xml", "src/tocmetadatasource.c: afs_toc_meta_data_source_load_xml", "src/administrativemetadata.c: afs_administrative_metadata_save_xml", "src/technicalmetadata.c: afs_technical_metadata_save_xml"]}
{"id": "C74", "title": "The layout of the indented form", "statement": "The indented form (compact = DFALSE) of a saved object is laid out regularly and completely determined by the object: every element starts on its own line at four blanks per enclosing element, a text stands on its own line one step deeper, the end tag on its own line, the resolution of a preview on one line, and the string ends with one line feed; nothing else is inserted. True for sections, layouts, previews, metadata, reels, administrative and technical metadata and content formats. Refuted for tables of contents (the data of a digital file continue the line of the element before), file entries (so does the resolution of a preview), control data (file entries and metadata sources fall back to column 0), lists of sections and preview pages; the first two are decided exactly.", "quantifier": "every valid object of the 13 kinds, and every table of contents and file entry, whose texts are XML text", "why_tests_cant": "The layout is made by callbacks that look at up to four ancestor names for every element; a test sees one nesting at a time.", "anchors": ["src/tocdata.c: afs_toc_data_save_string, whitespace callback", "src/tocfile.c: afs_toc_file_save_string, whitespace callback", "src/tocdatareel.c: afs_toc_data_reel_save_string", "src/tocdatareels.c: afs_toc_data_reels_save_string", "src/administrativemetadata.c: afs_administrative_metadata_save_string", "src/technicalmetadata.c: afs_technical_metadata_save_string", "src/controldata.c: afs_control_data_save_string", "src/toc/previewlayoutdefinitions.c", "thirdparty/minixml/src/mxml-file.c: mxml_write_node"]}
{"id": "C75", "title": "Save and load calls give back files and documents", "statement": "Every save and every load gives back what it takes. A call that saves to a file, saves to a string, loads from a file or loads from a string closes the file it opened exactly once, on every path (file that cannot be opened, save refused, text that does not parse, document refused), never touches or closes it afterwards, and never uses or deletes a document after deleting it. The document itself is always deleted too, except in exactly these cases: loading from a string a text that parses but is refused (18 of 19 kinds of objects); saving to a file that cannot be opened, for the 16 kinds that build the document first and do not delete it there.", "quantifier": "every kind of object (19), every object, file name, disk content, text, and every outcome of opening, parsing, saving and loading", "why_tests_cant": "The failing paths depend on the file system and on contents; a leak or a double release shows in no result of the call.", "anchors": ["src/*.c, src/toc/*.c, src/controlframe/boxingformat.c: *_save_file, *_save_string, *_load_file, *_load_string", "thirdparty/minixml/src/mxml-node.c: mxmlNewXML, mxmlDelete", "thirdparty/minixml/src/mxml-file.c: mxmlLoadFile, mxmlLoadString"]}
{"id": "C76", "title": "Sessions of edits, saves and loads", "statement": "A program that creates a table of contents and then, in any order and any number of times, edits it, saves it to a string and loads the string, saves it to files and loads it from files it saved before (or that do not exist), sees exactly the abstract history: every call answers what the rules say (a save succeeds exactly when the object is valid, a load exactly when the file was saved), after every session the object shows the strings, counts and elements of the history's book, each file gives the book that was saved last under its name, and no file but those saved to is changed. If the last save of a session is interrupted at any byte, the books saved under other names still load, and the file being written is refused, loads as the book being saved, or loads as an object without elements that is not valid.", "quantifier": "every finite session over the nine editing calls, save and load to strings and files, compact or indented, on every disk, for every splitting function and initial strings", "why_tests_cant": "The number of orders of edits, saves and loads is unbounded and the effects of one save show only after later loads.", "anchors": ["src/tocdata.c: afs_toc_data_save_file, afs_toc_data_load_file, afs_toc_data_save_string, afs_toc_data_load_string, setters, afs_toc_data_add_reel, afs_toc_data_add_metadata_source, afs_toc_data_add_layout(s), afs_toc_data_add_frame_offset"]}
{"id": "C77", "title": "Loaded objects are stable", "statement": "Saving and loading an object once brings it into a form that no further save and load changes: the object loaded is valid (for a table of contents, exactly when its job and reel ids are not blank), and saving and loading it again gives an equal object. True for tables of contents (with tags in normal form), file entries, reels, layout definitions, pages and previews. Refuted for metadata sources whose first tag is empty.", "quantifier": "every valid object, in normal form or not, whose texts XML can carry; every splitting function that gives the parts of a tag string; every object loaded into", "why_tests_cant": "Normalisations interact (types, blanks, empty lists, missing data), and the objects are unbounded.", "anchors": ["src/tocdata.c: afs_toc_data_save_file, afs_toc_data_load_file, afs_toc_data_save_string, afs_toc_data_load_string, setters, afs_toc_data_add_reel, afs_toc_data_add_metadata_source, afs_toc_data_add_layout(s), afs_toc_data_add_frame_offset", "src/tocfile.c: afs_toc_file_save_xml, afs_toc_file_load_xml", "src/tocmetadatasource.c: afs_toc_metadata_source_get_tags, afs_toc_metadata_source_set_tags"]}
