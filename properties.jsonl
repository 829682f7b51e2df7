{"id": "C01", "title": "4.1 binary round trip is exact", "statement": "If a structurally consistent MshSpec with version 4.1, file_type 1 and data_size 8 is written with save_msh and the bytes are read with load_msh, the call returns normally and the loaded MshSpec equals the original field by field: format, physical groups, entities, nodes, elements, node data, element data, element-node data (and curves and patches when the nanospline extension is compiled in). The only permitted differences are: a nodes (elements) section whose num_nodes (num_elements) is 0 comes back as the default empty section, and the real_tags of data headers, which are text even in binary files, come back rounded to six significant digits. (Structurally consistent includes: real tags finite, entry tags of data sections below 2^31, num_nodes_per_element 0 in node and element data, vectors that fit in memory.)", "quantifier": "every structurally consistent MshSpec of any size, every bit pattern of every double (NaN payloads included), every string content, both assert settings", "why_tests_cant": "The claim ranges over all specs, all 2^64 double patterns and unbounded vector sizes; tests only try a handful of meshes.", "anchors": ["src/save_msh.cpp:save_msh", "src/load_msh.cpp:load_msh", "src/save_msh_nodes.cpp:v41::save_nodes_binary", "src/load_msh_nodes.cpp:v41::load_nodes_binary", "src/save_msh_elements.cpp", "src/load_msh_elements.cpp", "src/save_msh_entities.cpp", "src/load_msh_entities.cpp", "src/save_msh_data.cpp", "src/load_msh_data.cpp"]}
{"id": "C02", "title": "4.1 ASCII round trip is exact up to six-digit rounding of doubles", "statement": "If a structurally consistent MshSpec with version 4.1, file_type 0, data_size 8 and only finite doubles is saved and loaded, the call returns normally and every integer, string, tag, count and block structure is returned exactly, and every double comes back as the double nearest to its six-significant-digit decimal rendering (so doubles that six decimal digits represent exactly come back unchanged).", "quantifier": "every structurally consistent finite MshSpec of any size, both assert settings", "why_tests_cant": "Needs all integers, all finite doubles and all vector sizes; a test compares a few small integers-valued coordinates.", "anchors": ["src/save_msh.cpp:save_msh", "src/load_msh.cpp:load_msh", "src/save_msh_nodes.cpp:v41::save_nodes_ascii", "src/load_msh_nodes.cpp:v41::load_nodes_ascii"]}
{"id": "C03", "title": "2.2 ASCII round trip keeps the mesh", "statement": "Saving a structurally consistent spec as version 2.2 ASCII and loading it returns normally and preserves, in order, every node (tag and xyz up to six-digit rounding), every element (tag, type, entity tag, node tags), physical group names and every data section. Block structure is re-derived: consecutive elements of equal type and entity tag form one block, node blocks are runs of nodes with the same last-referencing entity; entities are not stored.", "quantifier": "every structurally consistent spec with tags below 2^31 whose elements reference node tags within [min,max], any size", "why_tests_cant": "The regrouping depends on arbitrary interleavings of blocks and element references; tests use four meshes.", "anchors": ["src/save_msh_nodes.cpp:v22::save_nodes_ascii", "src/load_msh_nodes.cpp:v22::load_nodes_ascii", "src/save_msh_elements.cpp:v22::save_elements_ascii", "src/load_msh_elements.cpp:v22::load_elements_ascii", "src/load_msh_post_process.cpp"]}
{"id": "C04", "title": "2.2 binary round trip keeps the mesh", "statement": "As for 2.2 ASCII, but coordinates and data values come back bit-for-bit.", "quantifier": "every structurally consistent spec with tags below 2^31 whose elements reference node tags within [min,max], any size, any double bit patterns", "why_tests_cant": "Same as above; also all double patterns.", "anchors": ["src/save_msh_nodes.cpp:v22::save_nodes_binary", "src/load_msh_nodes.cpp:v22::load_nodes_binary", "src/save_msh_elements.cpp:v22::save_elements_binary", "src/load_msh_elements.cpp:v22::load_elements_binary"]}
{"id": "C05", "title": "2.2 node regrouping loses, duplicates and reorders nothing", "statement": "After load_msh of a 2.2 file, concatenating tags (and xyz) over the node blocks gives exactly the nodes in file order; num_nodes_in_block equals the number of tags; every block holds three coordinates per node; num_entity_blocks is the number of blocks; no block is empty and two neighbouring blocks never have the same (entity_dim, entity_tag).", "quantifier": "every set of node and element blocks reaching the post-processing step, any order of references", "why_tests_cant": "Depends on every possible pattern of element-to-node references.", "anchors": ["src/load_msh_post_process.cpp:regroup_nodes_into_blocks"]}
{"id": "C06", "title": "2.2 nodes are classified on the last referencing element", "statement": "After load_msh of a 2.2 file, a node lies in a block with the (entity_dim, entity_tag) of the last element in the file that references it, or (0,0) if none does.", "quantifier": "every element sequence and every node", "why_tests_cant": "Order-dependent last-writer rule over unbounded histories of element records.", "anchors": ["src/load_msh_post_process.cpp:regroup_nodes_into_blocks"]}
{"id": "C07", "title": "2.2 element regrouping loses, duplicates and reorders nothing", "statement": "After load_msh of a 2.2 file, concatenating the element records (tag, node tags, type, entity dim and tag) over the blocks gives exactly the element records in file order, block counts are right, and neighbouring blocks differ in (entity_dim, entity_tag, element_type).", "quantifier": "every sequence of element blocks with supported types", "why_tests_cant": "Every run pattern of any length.", "anchors": ["src/load_msh_post_process.cpp:regroup_elements_into_blocks"]}
{"id": "C08", "title": "2.2 entities carry exactly the physical tags seen in the file", "statement": "After loading the $Elements section of a 2.2 file, the entities of each dimension created from it are listed in strictly increasing tag order, and entity (d,t) carries physical tag p exactly when some element of dimension d in the section has two or more tags with second tag t and first tag p; the physical tags of an entity are strictly increasing (no duplicates).", "quantifier": "every element section of any length with any tags", "why_tests_cant": "Set/map construction over arbitrary histories.", "anchors": ["src/load_msh_elements.cpp:v22::load_elements_ascii", "src/load_msh_elements.cpp:v22::load_elements_binary", "src/load_msh_elements.cpp:create_entities"]}
{"id": "C09", "title": "Round trips stabilise", "statement": "Loading a saved file and saving it again reproduces the same bytes: for 4.1 binary files without real tags always; for ASCII whenever every double is stable under six-digit rounding; and every finite double in the normal range becomes stable after one round trip.", "quantifier": "every saveable spec; every normal double", "why_tests_cant": "A claim about every double and every mesh; tests do only a single round trip.", "anchors": ["src/save_msh.cpp:save_msh", "src/load_msh.cpp:load_msh"]}
{"id": "C10", "title": "ASCII and binary encodings agree", "statement": "Saving the same spec once as ASCII and once as binary (same version) and loading both gives specs that differ only in file_type and in the six-digit rounding of doubles.", "quantifier": "every saveable finite spec, versions 4.1 and 2.2", "why_tests_cant": "Relational property over all specs.", "anchors": ["src/save_msh.cpp:save_msh", "src/load_msh.cpp:load_msh"]}
{"id": "C11", "title": "Quoted names survive any content", "statement": "Physical group names and data string tags written by save_msh are read back unchanged whatever bytes they contain: spaces, quotes, backslashes, newlines, $-signs, section markers, NULs.", "quantifier": "every byte string", "why_tests_cant": "Infinite input space of strings; escapes interact with the tokenizer.", "anchors": ["src/save_msh_physical_groups.cpp", "src/load_msh_physical_groups.cpp", "src/save_msh_data.cpp", "src/load_msh_data.cpp:load_data_header"]}
{"id": "C12", "title": "Decimal integers survive", "statement": "Every size_t and every int printed by save_msh is read back as the same value, from any stream position preceded by any whitespace.", "quantifier": "all 2^64 size_t values and all 2^32 ints", "why_tests_cant": "Cannot enumerate 2^64 values.", "anchors": ["src/save_msh_nodes.cpp", "src/load_msh_nodes.cpp"]}
{"id": "C13", "title": "Six-digit doubles survive ASCII exactly", "statement": "A finite double whose value is exactly a decimal with at most six significant digits (in particular every integer of magnitude below 10^6) is read back bit-for-bit, sign of zero included.", "quantifier": "every such double", "why_tests_cant": "Ranges over hundreds of millions of doubles and depends on correct rounding at both ends.", "anchors": ["src/save_msh_nodes.cpp:v41::save_nodes_ascii", "src/load_msh_nodes.cpp:v41::load_nodes_ascii"]}
{"id": "C14", "title": "ASCII files preserve coordinates exactly", "statement": "A user relies on save_msh/load_msh preserving every finite double. (False for ASCII: the stream's default precision of six digits is never raised. The model refutes it and bounds the loss.)", "quantifier": "every finite double", "why_tests_cant": "Needs the worst case over all doubles.", "anchors": ["src/save_msh_nodes.cpp:v41::save_nodes_ascii", "src/save_msh_data.cpp:save_data"]}
{"id": "C15", "title": "load_msh terminates on every input", "statement": "load_msh returns or throws on every byte stream. (False: when a formatted read fails before the end of the stream the section loop spins forever. The model gives the exact condition: it diverges iff the stream is in the failed-but-not-eof state at a loop test, and terminates otherwise.)", "quantifier": "every byte stream, every build configuration", "why_tests_cant": "Termination over all inputs; a hang shows only on the inputs one thought of.", "anchors": ["src/load_msh.cpp:load_msh", "src/load_msh.cpp:forward_to"]}
{"id": "C16", "title": "Saved files always load again (non-finite values)", "statement": "A spec containing NaN or infinities that save_msh writes without complaint can be loaded again. (Holds for binary; false for ASCII, where the written nan/inf token makes load_msh hang or abort.)", "quantifier": "every spec with non-finite doubles", "why_tests_cant": "Specific bit patterns in arbitrary positions.", "anchors": ["src/save_msh_nodes.cpp:v41::save_nodes_ascii", "src/load_msh.cpp:load_msh"]}
{"id": "C17", "title": "Loaded 4.1 specs are structurally consistent", "statement": "Whenever load_msh returns normally from a 4.1 stream, however corrupted or truncated, num_entity_blocks equals the number of blocks for nodes and elements, every node block has num_nodes_in_block tags and num_nodes_in_block*(3 or 3+dim) doubles, every element block has a supported type and num_elements_in_block*(n+1) entries (modulo 2^64, exactly when no wrap occurs), and data sections have int_tags[2] entries of the declared width.", "quantifier": "every byte stream, every section order and repetition, every build configuration", "why_tests_cant": "Quantifies over all corrupted inputs.", "anchors": ["src/load_msh_nodes.cpp:v41", "src/load_msh_elements.cpp:v41", "src/load_msh_data.cpp:load_data"]}
{"id": "C18", "title": "Loaded 2.2 specs are structurally consistent", "statement": "Whenever load_msh returns normally from a 2.2 stream, the block counts and vector sizes of nodes and elements are consistent in the same sense, every node block is non-parametric, and element blocks have the dimension of their type.", "quantifier": "every byte stream with 2.2 sections", "why_tests_cant": "Quantifies over all inputs.", "anchors": ["src/load_msh_nodes.cpp:v22", "src/load_msh_elements.cpp:v22", "src/load_msh_post_process.cpp"]}
{"id": "C19", "title": "Binary 4.1 mesh sections are read memory-safely", "statement": "Reading a 4.1 binary $Nodes or $Elements section never accesses memory out of bounds, uses an indeterminate value or divides by zero, whatever the bytes; the only undefined behaviour is the signed overflow 3+entity_dim for a parametric block with entity_dim > INT_MAX-3.", "quantifier": "every byte stream, every prior spec", "why_tests_cant": "Memory safety over all adversarial inputs.", "anchors": ["src/load_msh_nodes.cpp:v41::load_nodes_binary", "src/load_msh_elements.cpp:v41::load_elements_binary"]}
{"id": "C20", "title": "load_msh is memory-safe on arbitrary input", "statement": "load_msh never has undefined behaviour on a byte stream. (False: a 4.1 ASCII element count that wraps modulo 2^64 writes out of bounds; a 2.2 element referencing a node tag outside [min,max] writes out of bounds; truncated headers use indeterminate counts.)", "quantifier": "every byte stream", "why_tests_cant": "Adversarial inputs.", "anchors": ["src/load_msh_elements.cpp:v41::load_elements_ascii", "src/load_msh_post_process.cpp:regroup_nodes_into_blocks", "src/load_msh_entities.cpp"]}
{"id": "C21", "title": "2.2 post-processing is safe exactly when references are in range", "statement": "For a 2.2 file whose $Nodes and $Elements sections were read, regrouping is free of out-of-bounds accesses iff every node tag referenced by an element lies in [min_node_tag, max_node_tag] (memory for the tag range permitting).", "quantifier": "every loaded 2.2 mesh", "why_tests_cant": "iff over all meshes.", "anchors": ["src/load_msh_post_process.cpp:regroup_nodes_into_blocks"]}
{"id": "C22", "title": "Header gate on load", "statement": "load_msh throws UnsupportedFeature for every file whose $MeshFormat section declares a version other than 2.2 or 4.1, or version 4.1 with a data size other than 8, or a non-zero file type not followed by the little-endian int 1; nothing after the header is interpreted.", "quantifier": "every header and every file continuation", "why_tests_cant": "All version strings and continuations.", "anchors": ["src/load_msh_format.cpp:load_mesh_format"]}
{"id": "C23", "title": "Header gate on save", "statement": "save_msh on a spec with an unsupported version throws UnsupportedFeature as soon as it would write entities, nodes or elements (InvalidFormat for binary data sections), having written only the preceding sections and the section's opening marker; with none of these sections it returns normally.", "quantifier": "every spec with an unsupported version", "why_tests_cant": "All version strings and all specs.", "anchors": ["src/save_msh_nodes.cpp:save_nodes", "src/save_msh_elements.cpp:save_elements", "src/save_msh_entities.cpp:save_entities", "src/save_msh_data.cpp:save_data"]}
{"id": "C24", "title": "file_type other than 0 and 1 is not loadable", "statement": "If a spec with file_type outside {0,1} is saved, loading the result throws UnsupportedFeature: save_msh omits the endianness marker that load_msh then demands.", "quantifier": "every spec, every such file_type", "why_tests_cant": "All ints but two.", "anchors": ["src/save_msh_format.cpp:save_mesh_format", "src/load_msh_format.cpp:load_mesh_format"]}
{"id": "C25", "title": "Unknown sections are skipped without trace", "statement": "Inserting a section with an unknown name (well-formed $X ... $EndX whose body does not contain the token $EndX) between sections does not change the result of load_msh.", "quantifier": "every unknown name, every body, every surrounding file", "why_tests_cant": "All names and bodies.", "anchors": ["src/load_msh.cpp:load_msh", "src/load_msh.cpp:forward_to"]}
{"id": "C26", "title": "Text between sections is ignored", "statement": "Whitespace-separated words not starting with $ placed before, between or after sections do not change the result.", "quantifier": "every such text", "why_tests_cant": "All strings.", "anchors": ["src/load_msh.cpp:load_msh"]}
{"id": "C27", "title": "validate_spec accepts exactly the documented specs", "statement": "Provided every element block has between 1 and data.size() elements, validate_spec returns normally iff block counts match, min<=max for node and element tags, node blocks have matching tag and data sizes with tags in [min,max], and every element record's tag and node tags lie in their ranges with data.size() a multiple of the entry width data.size()/num_elements; otherwise it throws CorruptData. It never throws anything else.", "quantifier": "every MshSpec", "why_tests_cant": "iff over all specs.", "anchors": ["src/validate_spec.cpp:validate_spec"]}
{"id": "C28", "title": "validate_spec never crashes", "statement": "validate_spec returns or throws on every spec. (False: it divides by zero when an element block has num_elements_in_block == 0, or more elements than data entries. The model gives the exact condition.)", "quantifier": "every MshSpec", "why_tests_cant": "Crash condition over all specs.", "anchors": ["src/validate_spec.cpp:validate_spec"]}
{"id": "C29", "title": "Specs accepted by validate_spec can be saved", "statement": "A spec that validate_spec accepts is written by save_msh without undefined behaviour. (False: element entry width is not compared with the element type, parametric>1 and data sections are not checked. True with those side conditions, for all four encodings.)", "quantifier": "every spec", "why_tests_cant": "All specs.", "anchors": ["src/validate_spec.cpp:validate_spec", "src/save_msh_elements.cpp", "src/save_msh_nodes.cpp"]}
{"id": "C30", "title": "Validity survives the round trip", "statement": "If a structurally consistent spec passes validate_spec, the spec obtained by saving and loading it (any version, any encoding) passes validate_spec too.", "quantifier": "every such spec, all four encodings", "why_tests_cant": "All specs.", "anchors": ["src/validate_spec.cpp:validate_spec", "src/load_msh.cpp:load_msh"]}
{"id": "C31", "title": "Element tables are right for every int", "statement": "nodes_per_element and get_element_dim return the node count and dimension of the MSH element family (Lagrange simplices, edges, serendipity variants etc.) for types 1..31 and throw UnsupportedFeature for every other int.", "quantifier": "every int", "why_tests_cant": "All 2^32 ints, and agreement with the geometric formulas.", "anchors": ["src/element_utils.cpp"]}
{"id": "C32", "title": "Physical group assignment survives a 2.2 round trip", "statement": "Loading a 2.2 file and saving it as 2.2 keeps each element's physical tag. (False: save_msh writes one tag per element, so load_msh finds no physical tags and the entities are lost; the model proves the loss is total.)", "quantifier": "every 2.2 spec with entities", "why_tests_cant": "All specs.", "anchors": ["src/save_msh_elements.cpp:v22", "src/load_msh_elements.cpp:v22", "src/save_msh_entities.cpp:save_entities"]}
{"id": "C33", "title": "Large tags survive binary files", "statement": "Node, element and data tags are preserved. (False at and above 2^31 for 2.2 binary meshes and for data entries in binary files of either version: they are truncated to 32 bits; the model characterises exactly what comes back.)", "quantifier": "every size_t tag", "why_tests_cant": "The threshold is at 2^31.", "anchors": ["src/save_msh_nodes.cpp:v22::save_nodes_binary", "src/save_msh_elements.cpp:v22::save_elements_binary", "src/save_msh_data.cpp:save_data"]}
{"id": "C34", "title": "Data sections need three integer tags", "statement": "load_msh throws InvalidFormat for every data section that declares fewer than three integer tags.", "quantifier": "every header with fewer than three integer tags and every continuation", "why_tests_cant": "All headers and continuations.", "anchors": ["src/load_msh_data.cpp:load_data"]}
{"id": "C35", "title": "2.2 binary element count mismatch is detected", "statement": "Reading a 2.2 binary $Elements section whose blocks contain more elements than declared throws InvalidFormat; when it returns normally exactly the declared number of elements has been appended.", "quantifier": "every byte stream", "why_tests_cant": "All block partitions.", "anchors": ["src/load_msh_elements.cpp:v22::load_elements_binary"]}
{"id": "C36", "title": "Layout of the written file", "statement": "save_msh writes, in this order and each at most once except data sections: MeshFormat (always), PhysicalNames, Entities, Nodes, Elements, NodeData*, ElementData*, ElementNodeData*, (nanospline sections), each present exactly when its content is non-empty (num_nodes/num_elements > 0), framed by $X / $EndX lines.", "quantifier": "every spec and configuration", "why_tests_cant": "All combinations of present/absent sections.", "anchors": ["src/save_msh.cpp:save_msh"]}
{"id": "C37", "title": "Truncated files are detected", "statement": "Loading a file cut off inside a section does not return normally. (False in release builds: at every cut point inside the coordinates of a 4.1 binary $Nodes section load_msh returns a mesh whose missing values are zero; in debug builds the assert aborts.)", "quantifier": "every cut point of every saved file", "why_tests_cant": "Every crash point.", "anchors": ["src/load_msh_nodes.cpp:v41::load_nodes_binary", "src/load_msh.cpp:load_msh"]}
{"id": "C38", "title": "File-name API", "statement": "load_msh(filename) throws runtime_error and changes nothing when the file cannot be opened, else equals load_msh on its bytes; save_msh(filename) changes only that file; what it leaves there when it throws is a prefix of sections, not the previous content; saving then loading by name is the round trip.", "quantifier": "every file system state, name and spec", "why_tests_cant": "All file-system states.", "anchors": ["src/load_msh.cpp:load_msh", "src/save_msh.cpp:save_msh"]}
{"id": "C39", "title": "Several 2.2 $Nodes sections accumulate", "statement": "Loading several $Nodes sections of a 2.2 file accumulates all nodes, the total count, and the min and max tags over all of them.", "quantifier": "every number of sections of any size", "why_tests_cant": "Unbounded number of sections.", "anchors": ["src/load_msh_nodes.cpp:v22::load_nodes_ascii"]}
{"id": "C40", "title": "Several 2.2 $Elements sections accumulate", "statement": "Loading several $Elements sections accumulates elements and num_elements. (True for ASCII; false for binary, where num_elements is overwritten by the last section.)", "quantifier": "every number of sections", "why_tests_cant": "Unbounded number of sections.", "anchors": ["src/load_msh_elements.cpp:v22"]}
{"id": "C41", "title": "Nanospline sections", "statement": "With the extension compiled in, curves and patches survive a round trip in both encodings; without it save_msh writes none of them and load_msh leaves them empty whatever the file says.", "quantifier": "every list of curves and patches; every input", "why_tests_cant": "All sizes and inputs.", "anchors": ["src/save_msh_curves.cpp", "src/load_msh_curves.cpp", "src/save_msh_patches.cpp", "src/load_msh_patches.cpp"]}
{"id": "C42", "title": "$Entities in a 2.2 file is rejected", "statement": "load_msh throws InvalidFormat when an $Entities section follows a 2.2 header, whatever the section holds.", "quantifier": "every such file", "why_tests_cant": "All continuations.", "anchors": ["src/load_msh_entities.cpp:load_entities"]}
{"id": "C43", "title": "Converting 4.1 to 2.2 and back keeps the mesh", "statement": "Saving a structurally consistent spec as 2.2, loading, relabelling as 4.1, saving and loading keeps nodes (tags, coordinates) and elements (tags, types, connectivity, entity tags) in order.", "quantifier": "every structurally consistent spec with tags below 2^31", "why_tests_cant": "All specs.", "anchors": ["src/save_msh.cpp:save_msh", "src/load_msh.cpp:load_msh"]}
{"id": "C44", "title": "Saving never depends on or changes the outcome of a failing output device", "statement": "save_msh reports a full or failing output stream to the caller. (False: it never inspects the stream, so it returns normally having stored only a prefix; the model proves the stored bytes are always a prefix of the complete file.)", "quantifier": "every spec, every capacity of the device (every crash point)", "why_tests_cant": "Every possible point of failure.", "anchors": ["src/save_msh.cpp:save_msh"]}
{"id": "C45", "title": "Saved files follow the MSH format byte for byte", "statement": "For every structurally consistent spec, save_msh writes exactly the file an independent description of the MSH 4.1 and 2.2 formats gives for it (section order, field order, field widths, one record per line in text files, quoting), and load_msh reads that file as the spec.", "quantifier": "every structurally consistent spec, every version (2.2, 4.1) and encoding; text files without empty records", "why_tests_cant": "Round-trip tests cannot see an error made alike in the writer and the reader; tests against sample files fix finitely many specs.", "anchors": ["src/save_msh.cpp:save_msh", "src/save_msh_nodes.cpp:save_nodes", "src/save_msh_elements.cpp:save_elements", "src/save_msh_entities.cpp:save_entities", "src/save_msh_data.cpp:save_data", "src/save_msh_physical_groups.cpp:save_physical_groups"]}
{"id": "C46", "title": "Text numerals are read as the numbers they denote", "statement": "Every decimal numeral (optional sign, leading zeros, for doubles also a fraction and an exponent) between whitespace is read as the int or size_t it denotes, or as the closest double (ties to even) with the written sign. Integers out of range give the nearest bound and fail the stream; a negative size_t is taken modulo 2^64 without any error.", "quantifier": "every numeral of any length, every surrounding whitespace, every rest of the file, every old contents of the variable", "why_tests_cant": "Unboundedly many spellings; rounding ties and range ends are never met by chance.", "anchors": ["src/load_msh_nodes.cpp:load_nodes_ascii", "src/load_msh_elements.cpp:load_elements_ascii", "src/load_msh_entities.cpp:load_entities_ascii", "src/load_msh_data.cpp:load_data"]}
{"id": "C47", "title": "4.1 files load as what they say, in any layout", "statement": "A 4.1 file (text or binary) made of a header and any sections in any order and number, with numbers in any decimal spelling, any whitespace between words, loose words and unknown sections anywhere, loads to exactly the values written in it. A text file and a binary file with the same sections load to the same mesh apart from the file type.", "quantifier": "every list of sections with values in range, every layout and spelling, both encodings, debug and release builds, with and without spline support", "why_tests_cant": "Unboundedly many layouts of the same mesh, most of which no writer in the test suite produces.", "anchors": ["src/load_msh.cpp:load_msh", "src/load_msh_nodes.cpp:load_nodes", "src/load_msh_elements.cpp:load_elements", "src/load_msh_entities.cpp:load_entities", "src/load_msh_data.cpp:load_data", "src/load_msh_format.cpp:load_mesh_format"]}
{"id": "C48", "title": "Section order does not matter and the last section of a kind counts", "statement": "In a 4.1 file two neighbouring sections with different names may be swapped without changing the loaded mesh, and a section other than data that is followed by another one of the same name may be left out.", "quantifier": "every pair of 4.1 files differing in that way (and in layout), both encodings, all configurations", "why_tests_cant": "Test files list the sections in one order and hold each once.", "anchors": ["src/load_msh.cpp:load_msh"]}
{"id": "C49", "title": "2.2 files load as what they say, in any layout", "statement": "A 2.2 file (text or binary) made of a header and any sections in any order and number, with numbers in any decimal spelling, any whitespace between words, loose words and unknown sections anywhere, loads to the nodes and elements of the file in order (cut into runs of one entity), the entities they name, and the physical names, data and splines written in it.", "quantifier": "every list of sections with values in range whose element nodes lie in the range of the node tags, every layout and spelling, both encodings, debug and release builds", "why_tests_cant": "Unboundedly many layouts of the same mesh, most of which no writer in the test suite produces.", "anchors": ["src/load_msh.cpp:load_msh", "src/load_msh_nodes.cpp:load_nodes", "src/load_msh_elements.cpp:load_elements", "src/load_msh_post_process.cpp:load_msh_post_process", "src/load_msh_data.cpp:load_data"]}
{"id": "C50", "title": "msh_inspect stays inside its vectors", "statement": "After load_msh returned, the printing part of msh_inspect reads every node tag, coordinate, element and data value inside its vector and runs to its end. This is false: it takes 3 + parametric numbers for each node, so a parametric block of points (and other parametric values than 0 and 1) makes it read past the coordinates. It holds of 2.2 files, and of other files exactly if every block is as long as the program takes it to be.", "quantifier": "every byte string that loads, both build modes", "why_tests_cant": "An out-of-bounds read prints garbage or nothing unusual; no file of the test data has a parametric point block.", "anchors": ["examples/msh_inspect.cpp:main", "src/load_msh_nodes.cpp:load_nodes"]}
{"id": "C51", "title": "msh_inspect prints the mesh it loaded", "statement": "The text on standard output lists every entity, physical group, node with all its coordinates, element, and node and element data value of the loaded mesh in order. This is false of parametric blocks on surfaces and volumes (later nodes get shifted numbers) and of integer tags of a million and more (printed as doubles, with six digits); it holds of all other meshes.", "quantifier": "every byte string that loads", "why_tests_cant": "The output is never compared with anything, and shifted coordinates look like coordinates.", "anchors": ["examples/msh_inspect.cpp:main"]}
{"id": "C52", "title": "msh_inspect as a whole", "statement": "With a number of arguments other than one the exit status is 1; if the file cannot be loaded nothing is printed and no file is touched; exit status 0 with one argument means that the whole mesh was printed and saved to tmp.msh. No other file ever changes, and tmp.msh loads as the same mesh.", "quantifier": "every argument list, file system state and room on the device", "why_tests_cant": "File system states and argument lists are unbounded; the tests do not run the example.", "anchors": ["examples/msh_inspect.cpp:main", "src/save_msh.cpp:save_msh", "src/load_msh.cpp:load_msh"]}
{"id": "C53", "title": "Builds and machines agree", "statement": "Leaving out asserts (NDEBUG) and having more memory never changes what a byte string loads as or which bytes a mesh is saved as, nor which exception or undefined behaviour results: only failed asserts and std::bad_alloc turn into something else. Two machines on which a file loads give the same mesh. Without these exceptions it is false: a cut file aborts in a debug build and loads in a release build.", "quantifier": "every byte string, every mesh, any two builds and memory sizes with the same extension setting", "why_tests_cant": "Tests run one build on one machine; side effects inside an assert show only in the other.", "anchors": ["src/load_msh.cpp:load_msh", "src/save_msh.cpp:save_msh", "src/load_msh_nodes.cpp", "src/save_msh_curves.cpp", "src/save_msh_patches.cpp"]}
{"id": "C54", "title": "How loading and saving can fail", "statement": "load_msh throws nothing but UnsupportedFeature, InvalidFormat, std::length_error and std::bad_alloc, aborts only in debug builds, and its undefined behaviour is one of out-of-bounds access, indeterminate value, signed overflow and back() of an empty vector. Each failure comes from a section that a table of hazards lists for the header in force, or from the regrouping of 2.2 meshes; every entry of the table occurs. A file that is 4.1 binary throughout never makes it access anything out of bounds. save_msh throws only UnsupportedFeature and InvalidFormat, with out-of-bounds access, signed overflow and a negative count as its undefined behaviour, and always terminates. The file-name overloads add std::runtime_error exactly when the file cannot be opened.", "quantifier": "every byte string, every mesh, every build and memory size", "why_tests_cant": "That no other failure exists is a statement about all inputs; a test shows only that one input fails in one way.", "anchors": ["src/load_msh.cpp:load_msh", "src/save_msh.cpp:save_msh", "src/load_msh_nodes.cpp", "src/load_msh_elements.cpp", "src/load_msh_data.cpp"]}
{"id": "C55", "title": "Spacing and line ends do not matter in text files", "statement": "Two texts made of the same words and quoted strings, with different whitespace between them, make load_msh return the same mesh, throw the same exception or fail in the same way, whether or not they are well formed. So a text with DOS line ends loads like the one with Unix line ends, and in particular every text file that save_msh writes for a consistent mesh may have its line ends changed. This needs section names and line ends to stay out of quoted strings, and it fails for binary files: there are files of each kind that load differently.", "quantifier": "every sequence of words, every way of spacing it, every mesh, every build and memory size", "why_tests_cant": "Whitespace can be chosen independently after each word of any text, also of malformed ones; tests try a few layouts of a few well-formed files.", "anchors": ["src/load_msh.cpp:load_msh", "src/load_msh_format.cpp", "src/load_msh_nodes.cpp", "src/load_msh_elements.cpp", "src/load_msh_data.cpp", "src/load_msh_entities.cpp", "src/load_msh_physical_groups.cpp"]}
{"id": "C56", "title": "A mesh is no larger than the file it comes from in debug builds", "statement": "When load_msh returns a mesh in a debug build, its physical groups (with names), node tags and data sections together hold no more numbers and name characters than the file has bytes. When the mesh sections are read as version 4.1, this also covers entities, coordinates and elements. So a short damaged file cannot make a large mesh. In release builds it can: 99 bytes load as any number of nodes that fits in memory, and the nanospline curves have this fault in debug builds as well.", "quantifier": "every file, every memory size; the counterexamples for every number of nodes", "why_tests_cant": "It concerns all files, in particular damaged ones whose counts are not followed by the promised data; tests load a few well-formed files.", "anchors": ["src/load_msh.cpp:load_msh", "src/load_msh_nodes.cpp", "src/load_msh_elements.cpp", "src/load_msh_data.cpp", "src/load_msh_entities.cpp", "src/load_msh_physical_groups.cpp", "src/load_msh_curves.cpp"]}
{"id": "C57", "title": "The beginning of a 4.1 file gives complete sections or fails in debug builds", "statement": "Take a 4.1 file and cut it off anywhere. If load_msh returns a mesh from the beginning in a debug build, its nodes, elements, entities, groups and data are those of the first few sections of the whole file, each one complete: no half-read section, no missing number, no number cut short. For a file written by save_msh, a later kind of section is there only when all sections before it are. This fails for version 2.2 (a cut between two elements repeats an element) and in release builds (a cut inside a number gives another number).", "quantifier": "every file that loads, every place to cut it; all layouts of 4.1 files; all saved meshes", "why_tests_cant": "There are as many cuts as bytes and the result depends on what each reader does at the end of the file; tests load complete files only.", "anchors": ["src/load_msh.cpp:load_msh", "src/load_msh.cpp:forward_to", "src/load_msh_nodes.cpp", "src/load_msh_elements.cpp", "src/load_msh_data.cpp", "src/load_msh_entities.cpp", "src/load_msh_physical_groups.cpp"]}
{"id": "C58", "title": "Nothing that is loaded is invented, in debug builds", "statement": "When load_msh returns a mesh in a debug build, each of its parts is written in the file: every data section is the meaning of a text that follows $NodeData, $ElementData or $ElementNodeData somewhere in the file, the physical groups of one that follows $PhysicalNames, and, when the mesh sections are read as version 4.1, the entities, nodes and elements of texts that follow $Entities, $Nodes and $Elements. In a text section each number is the value of the longest numeral at its place, in the order of the format, with nothing but whitespace in between; in a binary section the bytes are those of the numbers. A text has only one such meaning. In release builds nodes can be loaded that are nowhere in the file.", "quantifier": "every file, well formed or not, every memory size", "why_tests_cant": "Tests compare meshes with files that were written from them; they cannot show that no damaged file yields values from stale memory, defaults or half-read numbers.", "anchors": ["src/load_msh.cpp:load_msh", "src/load_msh_nodes.cpp", "src/load_msh_elements.cpp", "src/load_msh_data.cpp", "src/load_msh_entities.cpp", "src/load_msh_physical_groups.cpp"]}
{"id": "C59", "title": "What >> does with a number in any text", "statement": "Reading an int, a size_t or a double from a good stream skips whitespace and takes the longest beginning of the remaining text that is the beginning of a numeral, whatever follows it. If what was taken is a numeral that fits, its value is stored (the closest double, a negative size_t modulo 2^64). If it is too large, the nearest limit of the type is stored and the stream fails; for double this happens exactly from half-way between the largest double and 2^1024 on. If it is no numeral, as 1e+ or a lone sign, 0 is stored and the stream fails. The end-of-file bit is set exactly if nothing is left. With only whitespace left, or on a stream that failed or ended before, the variable keeps its contents. The description allows one result only.", "quantifier": "every text, every earlier contents of the variable, every stream state", "why_tests_cant": "The texts at which number parsing goes wrong are rare and endless: half exponents, lone signs, values one past a limit, digits running into letters.", "anchors": ["src/load_msh_nodes.cpp", "src/load_msh_elements.cpp", "src/load_msh_data.cpp", "src/load_msh_format.cpp"]}
{"id": "C60", "title": "Nothing loaded from a 2.2 file is invented", "statement": "In debug builds, the nodes, elements and entities loaded from a file whose mesh sections are read as version 2.2 are those of its $Nodes and $Elements sections, one after the other: the text or the bytes of each section say, after its count, exactly these records in this order, however the numbers are spelled and whatever stands around and between the sections. The one exception is the last section, if the file ends inside it: of a binary $Nodes section the missing bytes of the last node are zero; of an $Elements section one element, the damaged one, is repeated until the count is reached. The exception really occurs, and in release builds nodes are loaded that are nowhere in the file. The statement about a single $Elements section holds in all builds.", "quantifier": "every file, every build without NDEBUG (single $Elements sections: every build), every memory size", "why_tests_cant": "A reader that makes up a record does so only for particular damaged files; no list of damaged files is complete.", "anchors": ["src/load_msh_nodes.cpp", "src/load_msh_elements.cpp", "src/load_msh.cpp"]}
{"id": "C61", "title": "What can go wrong when the end of a file is missing", "statement": "Loading a beginning of a file never hangs unless loading the whole file hangs, in any build and version; in particular no beginning of a saved file makes load_msh hang. A file cut off right after the name of a $PhysicalNames or data section makes load_msh use an uninitialised variable in every build, so every saved file with groups or data has such a cut. For a file that loads and is never read as 2.2 (every saved 4.1 file is one), in debug builds, undefined behaviour and exceptions caused by cutting it come from a section other than $Nodes, and if the file is binary the undefined behaviour is the use of an uninitialised variable. For 2.2 files this is false: a number that is cut short is taken for a whole number and a node is looked up out of bounds, in debug builds too.", "quantifier": "every file and every place to cut it, every build and memory size (as said per clause)", "why_tests_cant": "There are as many cuts as bytes in every file; a test suite cuts a few files in a few places, and undefined behaviour may look like success there.", "anchors": ["src/load_msh.cpp", "src/load_msh_nodes.cpp", "src/load_msh_data.cpp", "src/load_msh_physical_groups.cpp", "src/load_msh_elements.cpp"]}
{"id": "C62", "title": "What Python shows of a mesh", "statement": "repr of an object of any class of the Python module gives the class name and, between parentheses, its attributes in the order and under the names in which the class defines them (node and element blocks without their data, Nodes and Elements without their blocks), each with the text of its value: integers as their shortest numerals, doubles as the closest number with six decimals (ties to even), strings as they are, lists by their length, and the lists of Data and MshSpec item by item. It raises an exception exactly if a version or group name to be shown is not UTF-8. Two MshSpecs with versions without commas and group names without closing parentheses show alike exactly if they agree in the format, the counts and tag ranges of nodes and elements, the numbers of entities, the groups, and the shape of the data; node coordinates, element connectivity, field values, curves and patches never show. With a closing parenthesis in a name one group can show as two.", "quantifier": "every object of every class, with any strings, numbers and doubles including infinities and NaN", "why_tests_cant": "The repr methods concatenate fields by hand; a test sees a few objects, not a swapped field or a string that makes repr raise.", "anchors": ["python/pymshio.cpp"]}
{"id": "C63", "title": "Streams in any state", "statement": "load_msh(std::istream&) on a good stream gives what loading a file with the remaining characters gives. On a stream that has failed before its end it never returns; on a stream whose eofbit is set it returns an empty mesh and leaves the stream alone. When it returns, eofbit is set and (if the stream was good) no character is left, so loading once more from the same stream gives an empty mesh. Loading a saved file also leaves failbit set. save_msh(std::ostream&) throws or not whatever the state of the stream; what the stream holds is kept and followed by a beginning of the file, which is all of it if the stream is still good and nothing if it was not good before.", "quantifier": "every stream content and state, every build, every mesh (the saved ones: every consistent mesh)", "why_tests_cant": "Tests open a fresh stream on a whole file; they do not try failed or exhausted streams, nor all contents.", "anchors": ["src/load_msh.cpp", "src/save_msh.cpp"]}
{"id": "C64", "title": "With a stream precision of 17, text files lose nothing", "statement": "save_msh(std::ostream&) honours the precision of the stream it is given. With a precision of 17 or more every finite double of a text file is read back as it was: a consistent 4.1 mesh comes back with the same nodes, elements, entities, groups, data and splines, and a consistent 2.2 mesh with the same nodes and data. Precision 6 is what the default printing does. 17 cannot be lowered: with 16 digits or fewer two consistent meshes with different nodes give the same file, and with 16 digits there is a consistent mesh whose file the loader never returns from (the largest double is printed as a number too large for a double).", "quantifier": "every precision, every consistent mesh, every double, every build", "why_tests_cant": "There are 2^64 doubles and unboundedly many meshes; no test of the project sets a precision, and values like the largest double are not tried.", "anchors": ["src/save_msh.cpp", "src/save_msh_nodes.cpp", "src/save_msh_entities.cpp", "src/save_msh_data.cpp", "src/save_msh_curves.cpp", "src/save_msh_patches.cpp"]}
{"id": "C65", "title": "One warning per skipped section, nothing else on std::cerr", "statement": "While loading, load_msh writes to std::cerr exactly one line `Warning: skipping section \"$Name\"` for each unknown section it meets, in the order it meets them, and nothing else; this holds as well when it throws, crashes or never returns, it never writes more however long it runs, and what it writes does not change the result. Every name is a whitespace-free word of the file right after a dollar sign and is none of the eleven known names, the names occurring in that order without overlap. A file written by save_msh for a consistent mesh is loaded in silence. For a file in any layout with any sections in any order the warnings are exactly the unknown section names in file order. A build without the spline extension drops $Curves and $Patches without any warning.", "quantifier": "every byte string as file, every run of the loop (finite or not), every consistent mesh, every layout of a 4.1 or 2.2 file, every build", "why_tests_cant": "Files are unbounded byte strings; no test of the project looks at std::cerr, and runs that never return cannot be observed to the end.", "anchors": ["src/load_msh.cpp", "src/load_msh_curves.cpp", "src/load_msh_patches.cpp"]}
{"id": "C66", "title": "Every exception says what is wrong", "statement": "validate_spec reports the first of its checks, in the order of the source, whose claim is false of the spec, with that check's message, and whenever it does not run into undefined behaviour it throws a message exactly when that message belongs to the first false claim. load_msh throws only a closed list of messages, each for its own reason: the unknown version word as it stands in the header, a data size that is not 8 (quoted as read, clamped to int), the byte order of the version quoted, an element type outside 1..31, too many elements in a 2.2 binary section, $Entities in a 2.2 file, fewer than three int tags, or memory; no section is ever refused for its version. save_msh throws only for its spec's version or for the type of one of its blocks, and quotes it. what() returns the message up to its first NUL character.", "quantifier": "every MshSpec, every byte string as file, every header layout and spelling of the numbers, every build", "why_tests_cant": "Specs and files are unbounded; the project's tests never look at what().", "anchors": ["include/mshio/exception.h", "src/validate_spec.cpp", "src/load_msh_format.cpp", "src/element_utils.cpp", "src/load_msh_data.cpp", "src/load_msh_elements.cpp", "src/load_msh_entities.cpp", "src/save_msh_nodes.cpp", "src/save_msh_data.cpp"]}
{"id": "C67", "title": "What the Python functions raise", "statement": "Called from Python, load_msh raises MemoryError or ValueError for lack of memory, RuntimeError with the text of the C++ exception (or that the file does not exist) in every other case, and UnicodeDecodeError exactly when a header is met whose version word, up to its first NUL, is unknown and is not UTF-8. save_msh of a spec whose version is a str raises nothing but RuntimeError, with the message of the C++ exception. validate_spec raises RuntimeError with the message of the first false check. nodes_per_element and get_element_dim return the numbers of the Gmsh tables and raise RuntimeError naming the type for every other int.", "quantifier": "every file system, every file name (names end at a NUL), every byte string as file, every MshSpec, every int, every build", "why_tests_cant": "The project has no Python tests; files and specs are unbounded.", "anchors": ["python/pymshio.cpp", "include/mshio/exception.h", "src/load_msh.cpp", "src/save_msh.cpp", "src/validate_spec.cpp", "src/element_utils.cpp"]}
{"id": "C68", "title": "What the round-trip tests check and which specs pass them", "statement": "The comparison ASSERT_SAME of tests/test_io.cpp passes on two specs exactly when their node blocks, elements, data sections and (with the extension) curves agree, doubles compared as numbers; it does not look at entities, physical groups, patches, the format or num_nodes_in_block. The test body save_and_load passes in version 4.1 on exactly those valid specs whose doubles are numbers that the format keeps (six digits in text, no NaN in binary), whose data tags fit four bytes in binary, and whose sections with a count of 0 are default; in version 2.2 moreover the blocks must be the runs the loader makes and the tag ranges tight. A spec with a NaN comes back unchanged and fails the test.", "quantifier": "every build, both encodings, every MshSpec that validates and can be saved (sizes, ranges and memory as in C01 to C04; element tags below 2^31 in version 2.2)", "why_tests_cant": "It is about the tests: they run the comparison on a dozen specs and say nothing about what it would accept or reject.", "anchors": ["tests/test_io.cpp", "src/validate_spec.cpp", "src/save_msh.cpp", "src/load_msh.cpp"]}
{"id": "C69", "title": "What validate_spec has left to find in a loaded mesh", "statement": "In a mesh loaded from a 4.1 file whose element blocks are not empty (and whose tag count does not exceed 2^64) and whose parametric flags are at most 1, validate_spec can only find fault with tags: it passes exactly when the recorded ranges are not empty and hold every node tag, element tag and node reference, and otherwise throws CorruptData with one of the eight messages about tags. The same holds for every mesh loaded from a 2.2 file; there it passes exactly when the $Nodes and $Elements sections the file has are not all empty and, in binary files, no element number is negative. Without the conditions it is false: an empty element block loads and makes validate_spec divide by zero; a parametric flag of 2 loads as non-parametric and is refused.", "quantifier": "every build and every byte sequence that load_msh accepts (2.2: node vectors of a size a std::vector can have, all $Elements sections text or all binary for the exact condition)", "why_tests_cant": "The tests validate a dozen meshes; the claim is about every file that loads, including malformed ones.", "anchors": ["src/validate_spec.cpp", "src/load_msh_nodes.cpp", "src/load_msh_elements.cpp", "src/load_msh_post_process.cpp"]}
{"id": "C70", "title": "A saved file tells what was saved", "statement": "If two consistent 4.1 specs are saved to the same bytes, they have the same encoding and are the same spec up to what a file cannot hold: the rounding of text doubles to six digits, sections whose count is 0, splines when they are not compiled in, and the upper half of data entry tags in binary files; when every text double is normal or unchanged by the rounding, the converse holds too. In particular, specs with nothing left out and nothing rounded (e.g. binary ones without real tags) are equal if their files are. Two consistent 2.2 specs with the same bytes have the same encoding, physical groups, nodes and elements in order, data and splines up to the same losses (and entity blocks, which may be cut differently). A 4.1 and a 2.2 spec are never saved to the same bytes. The exceptions are real: 1/3 and the next double, and data tags 5 and 5 + 2^32 in binary, give equal files.", "quantifier": "every build, every pair of consistent specs of either version and encoding", "why_tests_cant": "Tests compare a handful of saved files with their own reload; that no two different meshes collide is a claim about all pairs of specs.", "anchors": ["src/save_msh.cpp", "src/load_msh.cpp", "src/save_msh_data.cpp", "src/save_msh_nodes.cpp", "src/save_msh_elements.cpp"]}
{"id": "C71", "title": "The README lookup of physical groups", "statement": "README.md tells clients to find the physical groups of an element block with std::find_if over the entities of its dimension, and to assert that one is found. For a mesh loaded from a 2.2 file this gives, for every element block, the distinct first tags of the elements with the same dimension and second tag in the first $Elements section that has such elements, in increasing order, and the assert fails (or, without asserts, the end of a vector is dereferenced) exactly when no element of that dimension has the block entity as second of two tags. With one $Elements section and two tags per element, as Gmsh writes, it never fails and the tag of every element is found through its block. Saving and loading a 4.1 spec changes no result; after saving as 2.2 the lookup fails for every block. It is false that physical tags in later $Elements sections are found, and that the assert holds in every mesh that validate_spec accepts.", "quantifier": "every build, every 2.2 file in any layout (any bytes in debug builds), every consistent spec", "why_tests_cant": "The test for physical groups loads one Gmsh file; the claim is about every file and says when the documented recipe crashes.", "anchors": ["README.md", "src/load_msh_elements.cpp", "src/save_msh_entities.cpp", "include/mshio/MshSpec.h"]}
{"id": "C72", "title": "How much memory a 2.2 file needs", "statement": "After the sections of a 2.2 file with nodes are read, the outcome of load_msh is decided by the distance n = max_node_tag - min_node_tag + 1 and the memory: n = 2^64 (tags 0 and 2^64-1) is an out-of-bounds access because the size overflows to 0; 2^60 <= n < 2^64 throws std::length_error; for smaller n, less than 8n bytes of memory throws std::bad_alloc; otherwise the file loads if every node reference lies between the two tags and is an out-of-bounds access if not. Without nodes the only harmless references are to tag 0 and, after an empty $Nodes section, 2^64-1. So the memory needed is not bounded by the size of the file: an 85-byte file with two nodes loads on machines with 8 petabytes only, and an 88-byte one on none.", "quantifier": "every build, memory size and byte sequence whose sections are read as version 2.2", "why_tests_cant": "No test has a file with distant tags, and the boundary cases need petabytes of memory; the claim classifies every file.", "anchors": ["src/load_msh_post_process.cpp", "src/load_msh_nodes.cpp", "src/load_msh.cpp"]}
{"id": "C73", "title": "Builds with and without splines read each other's files", "statement": "save_msh with MSHIO_EXT_NANOSPLINE writes the bytes save_msh without it writes, followed by the spline sections (always at least $NanoSplineFormat). A build without the extension loads a file saved by a build with it as the same mesh without the splines, for text files and for binary files whose spline numbers contain no byte 36 (a dollar sign); a file saved without the extension loads to the same spec with it. Without the restriction on binary files it is false: the bytes of a valid curve can end the section early and pass for another one, so that the physical groups are lost.", "quantifier": "every structurally consistent spec, versions 2.2 and 4.1, both encodings, every pair of builds (asserts, memory) of which one has the extension", "why_tests_cant": "The tests are built with one configuration and never exchange files between configurations.", "anchors": ["src/save_msh.cpp", "src/load_msh.cpp", "src/load_msh_curves.cpp", "src/load_msh_patches.cpp", "src/save_msh_curves.cpp"]}
{"id": "C74", "title": "Meshes numbered one part after the other come back as they were, and the test cases pass", "statement": "A mesh made of parts - each with an entity, an element type, points and cells on its own points, all used, neighbouring parts on different entities, points and cells numbered from 1 through all parts - is accepted by validate_spec, and the round trip of tests/test_io.cpp (save, load, ASSERT_SAME) passes in versions 2.2 and 4.1, text and binary, if and only if the coordinates, data and curve values survive being written, which finite numbers of at most six digits do. Every test case of tests/test_io.cpp that makes its spec is an instance and passes on every build; so does \"Load\" for the two binary files. Without the conditions it is false in version 2.2: a point without cell and two neighbouring parts on one entity come back in other blocks, and the 4.1 binary sample file, whose nodes are parametric, would fail the test if saved as 2.2.", "quantifier": "every number, size and element type of parts, all groups, entities, data and splines with them, four formats, asserts on or off, with and without splines, every memory size large enough", "why_tests_cant": "The tests are these few meshes of at most eight nodes; the property covers all of them at once and names the conditions they silently meet.", "anchors": ["tests/test_io.cpp", "src/load_msh.cpp", "src/save_msh.cpp", "src/validate_spec.cpp", "src/load_msh_post_process.cpp"]}
{"id": "C75", "title": "Files written one after the other are read on top of each other", "statement": "Saving several consistent 4.1 specs into one stream, text and binary mixed, gives a stream that loads: the format is that of the last one, nodes, elements, entities, physical groups, curves and patches are those of the last spec that has any, and the data sets of all of them follow each other. In particular a file with nothing but data, written after a mesh, adds its data to the mesh. Hand-written 4.1 files in any layout put together load as one file with all their sections. 2.2 files of one encoding put together load as one file with all their sections too, but there the nodes and elements of all files add up instead of replacing each other.", "quantifier": "any number of files, all consistent specs, all layouts, text and binary in any mix (2.2: one encoding), asserts on or off, with and without splines, every memory size large enough", "why_tests_cant": "No test loads a stream with two headers; that the encoding may change in the middle and what happens to every kind of section needs all combinations.", "anchors": ["src/load_msh.cpp", "src/save_msh.cpp", "src/load_msh_format.cpp", "src/load_msh_nodes.cpp", "src/load_msh_elements.cpp", "src/load_msh_data.cpp"]}
{"id": "C76", "title": "Any file can be rewritten in another format without losing anything but digits", "statement": "Loading a 4.1 file in any layout and saving it as text or binary 4.1 succeeds and gives a file that loads as the same spec, up to rounding to six digits in text; saved as binary it loads as exactly the same spec apart from the file type, provided there are no real tags in data headers (which are text even in binary files), data tags fit 31 bits and parts that count nothing are empty. Loading a 2.2 file in any layout and saving it as 4.1 succeeds and gives a file with the nodes of the 2.2 file in order (coordinates rounded in text), its elements in order, its entities and its tag range. The exception: of a binary 2.2 file whose last $Elements section is empty, all elements are lost, since num_elements counts that section only.", "quantifier": "all 4.1 and 2.2 files in any layout whose sections can be read in one encoding and written in the other, both target encodings, asserts on or off, with and without splines, every memory size large enough", "why_tests_cant": "The tests save only specs that they built themselves in memory; a file in a foreign layout that is loaded and saved is never tried.", "anchors": ["src/load_msh.cpp", "src/save_msh.cpp", "src/load_msh_nodes.cpp", "src/load_msh_elements.cpp", "src/load_msh_post_process.cpp", "src/save_msh_nodes.cpp", "src/save_msh_elements.cpp", "src/save_msh_entities.cpp"]}
{"id": "C77", "title": "The contents of a 2.2 file determine its mesh", "statement": "Two 2.2 files with the same nodes, the same elements and the same other known sections, each in the same order, load as the same mesh: equal node blocks, element blocks, ranges, physical groups, data and splines, and entities that carry the same physical tags. Layout, encoding, unknown sections, how nodes and elements are cut into sections and how sections of different kinds are ordered make no difference, except that num_elements of a binary file counts its last $Elements section only and that cutting $Elements differently may list entities repeatedly. With the same cuts, files of one encoding load as equal specs. So the description of the loaded mesh that C49 uses has exactly one solution.", "quantifier": "all pairs of 2.2 files in any layout, both encodings and mixed, element numbers not negative, at least one element, asserts on or off, with and without splines, every memory size large enough", "why_tests_cant": "The tests only compare a file with what it was written from; that two different files give the same mesh is a relation between all pairs of files.", "anchors": ["src/load_msh.cpp", "src/load_msh_nodes.cpp", "src/load_msh_elements.cpp", "src/load_msh_post_process.cpp", "src/load_msh_entities.cpp"]}
{"id": "C78", "title": "Forty bytes of memory per byte of a file are enough", "statement": "If a 4.1 file, in any layout, loads on a machine with unlimited memory, it loads with the same result on every machine whose memory is at least forty bytes per byte of the file: no vector allocated during the load is larger than that. A 2.2 file needs besides only eight bytes for every number between its smallest and its largest node tag.", "quantifier": "all 4.1 and 2.2 files in any layout, both encodings, asserts on or off, with and without splines, every memory size", "why_tests_cant": "The tests run with plenty of memory; a bound on the memory that holds for every file cannot be measured on a few of them.", "anchors": ["src/load_msh.cpp", "src/load_msh_nodes.cpp", "src/load_msh_elements.cpp", "src/load_msh_post_process.cpp", "src/load_msh_entities.cpp", "src/load_msh_curves.cpp", "src/load_msh_patches.cpp", "src/load_msh_physical_groups.cpp"]}
{"id": "C79", "title": "Assignments to attributes in Python", "statement": "An assignment to an attribute of an object of the Python module succeeds exactly if the class has a member of that name whose C++ type can hold the value; it changes that member and nothing else, so that reading the attribute gives the value that was assigned and all others are as before; otherwise it raises and changes nothing. Assigning to an attribute of a member object (spec.nodes.num_nodes = 5) changes that member in place. New objects have members that are zero and empty, except that the version of a format is 4.1 and its data size 8. Starting from them, Python code can make every object whose members hold values of their types, except specs with splines, which it cannot make. Entities.empty() is true exactly for entities without points, curves, surfaces and volumes.", "quantifier": "all fifteen classes, all objects, all attribute names, all values of the kinds int, float, str, object and lists of these", "why_tests_cant": "There is no test of the Python module in the repository; that each of some eighty attributes writes the member of its own name is a matter of every class, name and value.", "anchors": ["python/pymshio.cpp", "include/mshio/MshSpec.h"]}
{"id": "C80", "title": "Whatever loads as version 4.1 can be saved and comes back", "statement": "Let load_msh return a spec of version 4.1 for any bytes whatsoever: a damaged file, one without a header, one with junk between sections. If the spec has no negative counts, no counts whose product exceeds size_t, and its vectors fit in memory, then save_msh writes it as binary without error and load_msh of the result gives it back up to the six digits of real tags, the low 32 bits of data tags and sections with a count of zero; if none of these occur, exactly. If all doubles are finite it can be saved as text too and comes back up to six digits. The build that saves need not be the one that loaded. Without the condition on negative counts this is false: there is a file that loads and can be saved, but loading the saved text accesses a vector out of bounds.", "quantifier": "all byte sequences, all builds (asserts, nanospline extension, memory) for loading and for saving", "why_tests_cant": "The tests save specs that were built by hand or loaded from good files; that every spec load_msh can return is fit for save_msh depends on all input bytes.", "anchors": ["src/load_msh.cpp", "src/save_msh.cpp", "src/load_msh_data.cpp", "src/load_msh_entities.cpp", "src/load_msh_curves.cpp", "src/load_msh_patches.cpp", "src/load_msh_physical_groups.cpp"]}
{"id": "C81", "title": "Whatever loads, also as version 2.2, can be saved as version 4.1", "statement": "Let load_msh return a spec for any bytes whatsoever, whatever versions the header sections declare. The numbers of blocks, nodes and entries in it are as its vectors are long (modulo 2^64), also after the blocks of a 2.2 file have been cut anew. If its data size is 8, no count is negative or wraps around and the vectors fit in memory, then the spec with the version changed to 4.1 is saved without error, as binary always and as text if all doubles are finite, and loading the result gives it back: exactly for binary files unless there are real tags, data tags that are no ints, or sections that are not written.", "quantifier": "all byte sequences, all builds (asserts, nanospline extension, memory) for loading and for saving", "why_tests_cant": "A converter from 2.2 to 4.1 is what users write with this library; that it works on every file that loads depends on all input bytes and on the regrouping of nodes and elements.", "anchors": ["src/load_msh.cpp", "src/save_msh.cpp", "src/load_msh_post_process.cpp", "src/load_msh_nodes.cpp", "src/load_msh_elements.cpp"]}
{"id": "C82", "title": "Saving and loading again needs no more memory than loading did", "statement": "Let load_msh return a spec for any bytes in which every $Nodes and $Elements section met is read as version 4.1, the version at the end too. Then each vector of the spec, and each vector within its blocks, entities, data entries and splines, fits in the memory of the build that loaded it. So, unlike in C80, no assumption about memory is needed: if the data size is 8 and no count is negative or wraps around, then the spec is saved in any build with at least as much memory, and loading the saved bytes succeeds and gives it back, exactly or up to what the format drops.", "quantifier": "all byte sequences, all builds (asserts, nanospline extension) for loading and for saving, all memory limits", "why_tests_cant": "Tests run with plenty of memory, and the sizes asked for depend on numbers in the file.", "anchors": ["src/load_msh.cpp", "src/save_msh.cpp", "src/load_msh_nodes.cpp", "src/load_msh_elements.cpp", "src/load_msh_entities.cpp", "src/load_msh_data.cpp", "src/load_msh_curves.cpp", "src/load_msh_patches.cpp"]}
{"id": "C83", "title": "A file is read from front to back, and its version stands in it", "statement": "For any bytes and any build, at each test of the two loops of load_msh what is left of the file is the end of what was left at any earlier test. Every word taken for a section marker stands in the file just before what is then left, and of two words read one after the other by the main loop the first stands first, without overlap. The version of a loaded spec is 4.1 or follows a $MeshFormat marker in the file after white space. So if no $MeshFormat in the file is followed by 2.2, all sections are read as version 4.1, and what loads can be saved and loaded again, unchanged, in the memory it was loaded in, under the conditions of C82.", "quantifier": "all byte sequences, all builds, all points of the section loop", "why_tests_cant": "That nothing is put back or read twice concerns all reads of all loaders on all inputs, failing streams included.", "anchors": ["src/load_msh.cpp", "src/load_msh_format.cpp", "src/io_utils.cpp", "src/load_msh_nodes.cpp", "src/load_msh_elements.cpp", "src/load_msh_data.cpp"]}
{"id": "C84", "title": "What is not in the file is not in the mesh", "statement": "If load_msh returns a spec and a section marker does not occur in the file, not even within other text, then the corresponding part of the spec is as in a new MshSpec: no nodes without $Nodes, no elements without $Elements, no entities without both $Entities and $Elements (in both versions, also after the blocks of a 2.2 file have been formed), the default header without $MeshFormat, no physical groups, data, curves or patches and the default spline version without their sections.", "quantifier": "all byte sequences, all builds", "why_tests_cant": "Concerns all other contents of the file, malformed ones and broken streams included, in which a section might be taken for another one or a stale buffer for a marker.", "anchors": ["src/load_msh.cpp", "src/load_msh_post_process.cpp", "src/load_msh_format.cpp", "src/load_msh_data.cpp", "include/mshio/MshSpec.h"]}
{"id": "C85", "title": "Converting a file twice is converting it once", "statement": "Let load_msh return a spec for any bytes in which no header says 2.2, with no negative or wrapping counts. Saving it as binary 4.1 and then loading and saving the result gives the same bytes if there are no real tags, and saving it in either encoding does if the doubles that are written in digits are normal or unchanged by that; loading and saving again needs no more memory. The same holds for any file of either version that is converted to 4.1, if what was loaded fits in memory.", "quantifier": "all byte sequences, all builds, both encodings", "why_tests_cant": "Says that a converter written with the library reaches a fixed point after one pass on every input that loads.", "anchors": ["src/load_msh.cpp", "src/save_msh.cpp", "src/load_msh_post_process.cpp"]}
