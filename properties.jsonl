{"id": "C01", "title": "Size varint round-trip", "statement": "For every machine integer n, reading the little-endian base-128 size encoding that the library writes for n returns exactly n and leaves the reader positioned exactly after it, whatever bytes follow, in debug and in release builds.", "quantifier": "every n < 2^64, every following byte sequence, both build modes", "why_tests_cant": "2^64 values times arbitrary suffixes; group boundaries and the last partial 7-bit group are exactly where a sample misses", "anchors": ["src/git/utils.rs:read_size_encoding", "src/git/utils.rs:write_size_encoding", "src/git/utils.rs:read_var_int_byte"]}
{"id": "C02", "title": "Pack entry header round-trip", "statement": "For every object type and every object size below 2^61, the type/size header emitted for a pack entry is read back as the same type number and the same size, consuming exactly the header; from 2^61 on, the size is not recovered.", "quantifier": "all six object types, all sizes < 2^61, all following bytes", "why_tests_cant": "the header packs a type into the middle of a varint; correctness depends on all carries between 4-bit and 7-bit groups", "anchors": ["src/git/object/metadata.rs:convert_to_vec", "src/git/utils.rs:read_type_and_size", "src/git/object/types.rs:type2_number"]}
{"id": "C03", "title": "Negative-offset encoding round-trip", "statement": "For every distance n, the bytes written for the distance to a delta base are decoded back to n. (The code violates this as soon as a base-128 digit of n above the lowest is zero, first at n = 16384: debug builds panic, release builds emit a different distance. The exact set of n on which it holds is characterised.)", "quantifier": "every n < 2^64, both build modes", "why_tests_cant": "an existing test uses tiny packs whose distances stay below 16384; the failing values are sparse in the tested range", "anchors": ["src/git/utils.rs:write_offset_encoding", "src/git/utils.rs:read_offset_encoding", "src/git/pack/encode.rs:encode_delta"]}
{"id": "C04", "title": "Negative-offset decoding follows git's format", "statement": "For every distance n, decoding the encoding prescribed by git's pack format (most significant group first, each continuation adding one) returns n and consumes exactly that encoding.", "quantifier": "every n < 2^64 and all following bytes", "why_tests_cant": "bijective base-128 numeration has a carry at every length boundary", "anchors": ["src/git/utils.rs:read_offset_encoding"]}
{"id": "C05", "title": "32-bit big-endian integers", "statement": "Writing any 32-bit value as four bytes and reading it back returns the value and consumes four bytes; reading from fewer than four bytes is an I/O error and never a value.", "quantifier": "every v < 2^32, every suffix, every shorter input", "why_tests_cant": "2^32 values and arbitrary truncation", "anchors": ["src/git/utils.rs:u32_vec", "src/git/utils.rs:read_u32", "src/git/utils.rs:read_bytes"]}
{"id": "C06", "title": "Object ids as hex text", "statement": "Printing an object id and parsing the text returns the id; parsing accepts exactly the strings of 40 hexadecimal digits of either case, and printing what was parsed gives the lower-cased input; every other string is rejected with an error rather than a wrong id or a crash.", "quantifier": "all 2^160 ids and all byte strings of any length", "why_tests_cant": "unbounded input strings; tests try three", "anchors": ["src/git/hash.rs:Hash::from_bytes", "src/git/hash.rs:Hash::to_plain_str", "src/git/hash.rs:FromStr for Hash", "src/git/hash.rs:hex_char_value"]}
{"id": "C07", "title": "Object id is the git object hash", "statement": "The id computed for an object is the SHA-1 of '<type> <decimal length>\\0<content>', and that preimage determines the object: two objects with the same preimage have the same type and content.", "quantifier": "all base object types and all contents of any length", "why_tests_cant": "injectivity of the header framing ranges over all pairs of contents", "anchors": ["src/git/hash.rs:Hash::from_meta", "src/git/object/metadata.rs:MetaData::new"]}
{"id": "C08", "title": "Loose object path determines the id", "statement": "The directory and file name under which a loose object is stored are the first two and the remaining 38 hex digits of its id; distinct ids are stored at distinct paths.", "quantifier": "all pairs of ids", "why_tests_cant": "ranges over all pairs of 160-bit ids", "anchors": ["src/git/hash.rs:to_folder", "src/git/hash.rs:to_filename", "src/git/object/metadata.rs:write_to_file"]}
{"id": "C09", "title": "Loose object round-trip", "statement": "For every base object, writing it as a loose object and reading that file returns an equal object (same type, id, size, content); other files are untouched.", "quantifier": "all base types, all contents, all previous directory states", "why_tests_cant": "contents are unbounded and may contain the separators (space, NUL) used by the header", "anchors": ["src/git/object/metadata.rs:write_to_file", "src/git/object/metadata.rs:read_object_from_file"]}
{"id": "C10", "title": "Loose object reader checks the declared length", "statement": "A loose object whose header declares a length different from the content length is rejected. (Violated: the declared length is parsed but never compared; the file is accepted.)", "quantifier": "all declared lengths and contents", "why_tests_cant": "a universally quantified rejection property", "anchors": ["src/git/object/metadata.rs:read_object_from_file"]}
{"id": "C11", "title": "Delta application implements git's delta format", "statement": "Applying a delta to a base succeeds exactly when the delta is well-formed for that base according to git's format (declared base length equals the base length, every copy lies inside the base, every literal is complete and non-empty, total output equals the declared length), and then the result is the concatenation the format prescribes, with the type of the base. This holds for deltas whose two length fields denote 64-bit numbers in at most ten bytes; beyond that the declared length is only compared modulo 2^64.", "quantifier": "all bases and all delta byte strings with 64-bit length fields", "why_tests_cant": "both inputs are unbounded and adversarial", "anchors": ["src/git/object/delta.rs:apply_delta", "src/git/object/delta.rs:apply_delta_instruction", "src/git/utils.rs:read_partial_int"]}
{"id": "C12", "title": "Malformed deltas are rejected, never accepted with wrong content", "statement": "For every base and every delta byte string the outcome is one of: the prescribed object, an error, or an abort; no object of a length other than the declared one and no byte from outside base and delta is ever returned. A delta cut inside an instruction aborts the process instead of returning an error (violation of graceful rejection).", "quantifier": "all bases and all byte strings", "why_tests_cant": "adversarial input space", "anchors": ["src/git/object/delta.rs:apply_delta_instruction"]}
{"id": "C13", "title": "Generated deltas reproduce the target", "statement": "For every base and target of the same repository and every edit script the diff engine may report for them, the generated delta applied to the base yields exactly the target, provided base < 4 GiB and target < 16 MiB.", "quantifier": "all pairs of contents within the bounds, all valid edit scripts", "why_tests_cant": "all pairs of byte strings and all alignments; instruction merging and 127-byte literal splitting interact", "anchors": ["src/git/object/diff.rs:DeltaDiff", "src/git/object/diff.rs:equal", "src/git/object/diff.rs:insert", "src/git/object/diff.rs:decode_op", "src/git/object/diff.rs:get_delta_metadata"]}
{"id": "C14", "title": "Generated deltas are correct for large common regions", "statement": "The generated delta also reproduces the target when base and target share a run of 16 MiB or more. (Violated: the copy length is truncated to 24 bits, and the emitted delta does not apply.)", "quantifier": "all pairs of contents, all sizes", "why_tests_cant": "needs a 16 MiB input with a specific alignment", "anchors": ["src/git/object/diff.rs:decode_op", "src/git/object/diff.rs:equal"]}
{"id": "C15", "title": "Pack header", "statement": "The pack header written for n objects is read back as version 2 with n objects for every 0 < n < 2^32; any other magic or version is rejected with an error by the whole decoder; a file shorter than 12 bytes is never accepted; packing zero objects aborts.", "quantifier": "all n < 2^32, all 12-byte prefixes", "why_tests_cant": "all byte prefixes", "anchors": ["src/git/pack/encode.rs:encode_header", "src/git/pack/mod.rs:check_header"]}
{"id": "C16", "title": "Pack round-trip for whole objects", "statement": "Encoding any non-empty list of whole objects as a pack and decoding the pack yields exactly those objects: same number, each retrievable by its id with the same type and content, at the offset at which it was written, and no others.", "quantifier": "all non-empty lists of base objects with pack size < 4 GiB, all zlib implementations that round-trip, both build modes", "why_tests_cant": "lists and contents are unbounded", "anchors": ["src/git/pack/encode.rs:Pack::encode", "src/git/pack/mod.rs:Pack::decode", "src/git/pack/mod.rs:next_object", "src/git/object/metadata.rs:convert_to_vec", "src/git/pack/cache.rs:update"]}
{"id": "C17", "title": "Pack checksum", "statement": "The last 20 bytes of every encoded pack are the SHA-1 of everything before them; and a pack whose trailer does not match its content is rejected when decoded. (First half holds; second half is violated: decode never verifies the trailer.)", "quantifier": "all object lists; all corrupted trailers", "why_tests_cant": "all corruptions", "anchors": ["src/git/pack/encode.rs:append_hash_signature", "src/git/pack/mod.rs:Pack::decode"]}
{"id": "C18", "title": "Delta-compressed pack round-trip", "statement": "Whenever the sliding-window delta encoder produces a pack in a debug build, decoding that pack yields exactly the original objects, whichever bases the window picked and however long the delta chains are.", "quantifier": "all non-empty lists of base objects (each < 16 MiB, pack < 4 GiB), all valid diff scripts, all round-tripping zlib implementations", "why_tests_cant": "window choice, chains, and offsets interact over unbounded lists", "anchors": ["src/git/pack/encode.rs:encode_delta", "src/git/pack/mod.rs:next_object", "src/git/object/diff.rs:DeltaDiff"]}
{"id": "C19", "title": "Delta encoder never corrupts distances", "statement": "The sliding-window delta encoder produces a decodable pack for every list of objects. (Violated when a base lies at a distance with a zero base-128 digit, e.g. 16384 bytes before the delta: debug builds abort, release builds write the wrong distance.)", "quantifier": "all lists of objects, both build modes", "why_tests_cant": "needs objects placed exactly at rare distances", "anchors": ["src/git/pack/encode.rs:encode_delta", "src/git/utils.rs:write_offset_encoding"]}
{"id": "C20", "title": "Pack decoding terminates on every input", "statement": "Decoding any byte string as a pack terminates. (Violated: an offset-delta entry whose distance is 0 names itself as base and recurses for ever; decoding terminates for every byte string that contains no such entry.)", "quantifier": "all byte strings, all storages", "why_tests_cant": "termination over all inputs", "anchors": ["src/git/pack/mod.rs:next_object"]}
{"id": "C21", "title": "Decoded pack cache is content-addressed", "statement": "After decoding any byte string as a pack, every object in the result is filed under the hash of its own content, every recorded offset resolves to an object in the result, and looking up an id returns an object with that id or nothing.", "quantifier": "all byte strings and histories of cache updates", "why_tests_cant": "an invariant over all decode histories", "anchors": ["src/git/pack/cache.rs:PackObjectCache", "src/git/pack/mod.rs:next_object"]}
{"id": "C22", "title": "Unknown entry types are reported as errors", "statement": "A pack entry with an undefined type number (0 or 5) makes decoding return an error. (Violated: the error value is built by a conversion that panics on exactly those numbers.)", "quantifier": "all packs containing such an entry", "why_tests_cant": "all inputs", "anchors": ["src/git/pack/mod.rs:next_object", "src/git/object/types.rs:number_type"]}
{"id": "C23", "title": "Merging a pack with loose objects", "statement": "Combining an existing pack (whole objects and deltas) with the loose objects of a directory yields a pack file whose decoding contains all objects of the pack and all loose objects, nothing else, with the object counts added, existing entries at unchanged offsets, and no other file touched; with no loose objects the merge aborts.", "quantifier": "all well-formed packs with any 20-byte trailer and all non-empty sets of loose objects", "why_tests_cant": "unbounded inputs", "anchors": ["src/git/pack/encode.rs:pack_object_dir", "src/git/pack/mod.rs:decode_raw_data", "src/git/utils.rs:get_pack_raw_data", "src/git/pack/encode.rs:pack_loose"]}
{"id": "C24", "title": "Decoding a directory of packs", "statement": "Decoding several packs into one cache returns every object of every pack and reports the sum of their object counts. (The objects are complete, but the reported count is always zero.)", "quantifier": "all lists of self-contained packs below 4 GiB", "why_tests_cant": "unbounded lists of packs", "anchors": ["src/git/pack/multidecode.rs:multi_decode", "src/git/pack/multidecode.rs:decode_with_cache"]}
{"id": "C25", "title": "Decoding through an index returns the objects", "statement": "Decoding a pack with the help of its index returns a pack holding the objects named by the index. (Violated: the objects are decoded and then dropped; the returned pack is empty.)", "quantifier": "all packs and matching indexes", "why_tests_cant": "all inputs", "anchors": ["src/git/pack/mod.rs:decode_by_idx"]}
{"id": "C26", "title": "Index round-trip", "statement": "For every decoded pack smaller than 4 GiB the generated index file parses, lists exactly the objects of the pack in ascending id order with their pack offsets, counts them per first byte correctly, carries the pack signature, and looking up any id returns its offset.", "quantifier": "all sets of objects (any size), all offsets < 2^32", "why_tests_cant": "fan-out table correctness depends on the distribution of all ids", "anchors": ["src/git/idx/mod.rs:Idx::encode", "src/git/idx/mod.rs:Idx::decode", "src/git/idx/mod.rs:get_offset"]}
{"id": "C27", "title": "Index offsets of large packs", "statement": "The generated index gives the right offset for every object of a pack, also beyond 4 GiB. (Violated for packs assembled in memory: offsets are truncated modulo 2^32. Decoded packs cannot contain such offsets, because decoding aborts.)", "quantifier": "all offsets < 2^64", "why_tests_cant": "needs a 4 GiB pack", "anchors": ["src/git/idx/mod.rs:Idx::encode"]}
{"id": "C28", "title": "Tree encode/decode", "statement": "For every list of tree entries with legal modes and NUL-free UTF-8 names, encoding to tree content and decoding returns the same entries in order.", "quantifier": "all lists of entries of any length", "why_tests_cant": "unbounded lists; ids contain arbitrary bytes including the separators", "anchors": ["src/git/object/base/tree.rs:encode_metadata", "src/git/object/base/tree.rs:decode_metadata"]}
{"id": "C29", "title": "Tree byte fidelity", "statement": "Every byte string that decodes as a tree re-encodes to exactly the same bytes (hence to the same object id), and the classification of each entry is the one its mode denotes.", "quantifier": "all byte strings", "why_tests_cant": "all inputs", "anchors": ["src/git/object/base/tree.rs:decode_metadata", "src/git/object/base/tree.rs:tree_item_type_from"]}
{"id": "C30", "title": "Author/committer line round-trip", "statement": "Every identity line written for (role, name, e-mail, timestamp, zone) is parsed back to the same values when role has no space or angle bracket, name has no angle bracket and e-mail has no '>'.", "quantifier": "all field values in that domain, timestamps < 2^64", "why_tests_cant": "unbounded strings", "anchors": ["src/git/object/base/sign.rs:encode_to_data", "src/git/object/base/sign.rs:decode_from_data"]}
{"id": "C31", "title": "Commit encode/decode", "statement": "Encoding and decoding a commit with at most one parent returns the same tree, parent, author, committer and message, whatever the message contains.", "quantifier": "all well-formed commits with <= 1 parent, all messages", "why_tests_cant": "messages may contain header-like text such as 'parent' or 'author'", "anchors": ["src/git/object/base/commit.rs:encode_metadata", "src/git/object/base/commit.rs:decode_meta"]}
{"id": "C32", "title": "Merge commits keep all parents", "statement": "Decoding a commit returns all of its parents. (Violated: with k parents, the first parent is returned k times.)", "quantifier": "all parent lists", "why_tests_cant": "quantifies over all lists; the repository only tests single-parent commits", "anchors": ["src/git/object/base/commit.rs:decode_meta"]}
{"id": "C33", "title": "Commit byte fidelity", "statement": "Every commit content in canonical git layout with at most one parent is re-encoded to exactly the same bytes after decoding, so the id is preserved.", "quantifier": "all contents of that layout", "why_tests_cant": "all inputs", "anchors": ["src/git/object/base/commit.rs:decode_meta", "src/git/object/base/commit.rs:encode_metadata"]}
{"id": "C34", "title": "Tag encode/decode", "statement": "Encoding and decoding an annotated tag returns the same object, type, name and tagger, and the same message whenever the message starts with a newline; otherwise the text before the first newline of the message is lost, and a message without newline aborts.", "quantifier": "all well-formed tags, all messages", "why_tests_cant": "unbounded strings", "anchors": ["src/git/object/base/tag.rs:encode_metadata", "src/git/object/base/tag.rs:decode_metadata"]}
{"id": "C35", "title": "Classification of unpacked objects", "statement": "Grouping the decoded objects by type loses nothing and duplicates nothing: every object of the cache appears exactly once, in the list of its type, under any thread interleaving of the parallel conversion.", "quantifier": "all caches, all interleavings of the worker threads", "why_tests_cant": "schedules", "anchors": ["src/git/pack/decode.rs:update_from_cache"]}
{"id": "C36", "title": "Completeness check accepts complete packs", "statement": "The completeness check succeeds on packs in which every tree entry is present, and the objects can then be listed for repacking. (Violated: the table consulted is never filled, so the check fails for every pack with a non-empty tree, and listing aborts for every non-empty pack.)", "quantifier": "all object sets", "why_tests_cant": "all inputs", "anchors": ["src/git/pack/decode.rs:check_completeness", "src/git/pack/decode.rs:vec_sliding_window", "src/git/pack/encode.rs:Pack::write"]}
{"id": "C37", "title": "pkt-line round-trip", "statement": "Every payload of at most 65531 bytes framed as a pkt-line is read back unchanged with the stated length and consumes exactly the line; longer payloads are not framed correctly.", "quantifier": "all payloads, all following bytes", "why_tests_cant": "unbounded payloads", "anchors": ["src/git/protocol/pack.rs:add_pkt_line_string", "src/git/protocol/pack.rs:read_pkt_line"]}
{"id": "C38", "title": "pkt-line reader never invents data", "statement": "On every byte string, reading one pkt-line either aborts or returns a prefix-delimited slice of the input: length field, payload and remaining bytes concatenate to the input; a flush or an empty input returns the empty line with length 0.", "quantifier": "all byte strings", "why_tests_cant": "adversarial inputs", "anchors": ["src/git/protocol/pack.rs:read_pkt_line"]}
{"id": "C39", "title": "Side-band transport delivers the pack", "statement": "With a side-band capability negotiated, for every way the pack is cut into chunks of at most 65515 bytes, a client that demultiplexes band 1 until the flush packet obtains exactly the pack.", "quantifier": "all packs and all chunkings", "why_tests_cant": "the chunking is decided by the runtime reader", "anchors": ["src/git/protocol/pack.rs:build_side_band_format", "src/git/protocol/http.rs:send_pack", "src/git/protocol/ssh.rs:handle_upload_pack"]}
{"id": "C40", "title": "Transport without side-band delivers the pack", "statement": "Without side-band the response body after the acknowledgement is exactly the pack. (Violated: a flush packet '0000' is appended.)", "quantifier": "all packs and chunkings", "why_tests_cant": "all inputs", "anchors": ["src/git/protocol/http.rs:send_pack"]}
{"id": "C41", "title": "Reference advertisement", "statement": "The discovery reply is a valid pkt-line stream: (HTTP) service header and flush, first the head id with name HEAD, or the zero id with capabilities^{}, and the capability list of the requested service, then one line per reference reported by storage in the order reported, then a flush.", "quantifier": "all repositories, reference sets, services and transports", "why_tests_cant": "all reference sets", "anchors": ["src/git/protocol/pack.rs:git_info_refs", "src/git/protocol/pack.rs:build_smart_reply"]}
{"id": "C42", "title": "Every reference is advertised", "statement": "Every reference stored for the repository appears in the advertisement. (Violated: references are collected in a map keyed by object id, so of several references on one commit only one survives.)", "quantifier": "all reference tables", "why_tests_cant": "all tables", "anchors": ["src/gust/driver/database/mysql/storage.rs:get_ref_object_id"]}
{"id": "C43", "title": "Fetch request parsing", "statement": "For every well-formed fetch request the server collects exactly the wanted and the offered ids, takes capabilities from the first line only, ignores other commands and flushes, and stops at done.", "quantifier": "all request streams built from wants, haves, flushes and other lines ending in done", "why_tests_cant": "unbounded streams", "anchors": ["src/git/protocol/pack.rs:git_upload_pack", "src/git/protocol/pack.rs:parse_capabilities"]}
{"id": "C44", "title": "Fetch request handling terminates", "statement": "Handling a fetch request terminates for every request body. (Violated: a body that ends without done makes the server loop for ever.)", "quantifier": "all request bodies", "why_tests_cant": "non-termination cannot be observed by a test", "anchors": ["src/git/protocol/pack.rs:git_upload_pack"]}
{"id": "C45", "title": "Acknowledgements name ids the server has and the client mentioned", "statement": "Every ACK line of a fetch reply names an id that the client sent; an ACK 'common' names a commit that the repository has. (Violated: a hard-coded foreign id is acknowledged in every reply to a request with haves, and commits of other repositories count as common. Holds: 'common' is said of exactly the ids sent that are commits stored in some repository.)", "quantifier": "all requests over HTTP and SSH, all database states", "why_tests_cant": "all requests and database contents; iteration orders of sets", "anchors": ["src/git/protocol/pack.rs:git_upload_pack"]}
{"id": "C46", "title": "Push of a single reference over HTTP", "statement": "For every push consisting of one create or update command and a pack that decodes, the pack content is stored, the reference is created (under its name followed by NUL) or, if it is the only one of the repository with the old id, moved to the new id, nothing else changes, and the report says 'unpack ok' and 'ok <ref>', framed as negotiated.", "quantifier": "all well-formed single-command requests and all database states", "why_tests_cant": "state space of the database", "anchors": ["src/git/protocol/pack.rs:git_receive_pack", "src/git/protocol/http.rs:git_receive_pack", "src/gust/driver/database/mysql/storage.rs:handle_refs"]}
{"id": "C47", "title": "Pushes of several references", "statement": "A push with several reference commands updates all of them. (Violated: after the first command the stream is cut at a fixed distance; nothing is executed, and the reply is empty, an abort or the rest of the request.)", "quantifier": "all command lists of length >= 2", "why_tests_cant": "unbounded lists", "anchors": ["src/git/protocol/pack.rs:git_receive_pack"]}
{"id": "C48", "title": "Deleting a reference", "statement": "A push that only deletes a reference removes it. (Violated: over HTTP nothing is executed and an empty report is returned; the storage operation itself aborts.)", "quantifier": "all delete-only pushes and database states", "why_tests_cant": "all inputs", "anchors": ["src/git/protocol/pack.rs:git_receive_pack", "src/gust/driver/database/mysql/storage.rs:delete_refs"]}
{"id": "C49", "title": "Reference name of a push command", "statement": "The reference name taken from a push command is the one the client sent. (Holds for commands without capability list; violated for the first command of every push: the NUL separator and the text up to the next white space become part of the name.)", "quantifier": "all command lines", "why_tests_cant": "all strings", "anchors": ["src/git/protocol/pack.rs:parse_ref_update", "src/git/protocol/pack.rs:read_until_white_space"]}
{"id": "C50", "title": "Classification of push commands", "statement": "A command is a creation exactly when its old id is all zeros, a deletion exactly when only its new id is all zeros, otherwise an update; its report line is 'ok <ref>' unless it was marked failed, then 'ng <ref> <reason>'.", "quantifier": "all id pairs, all histories of status changes", "why_tests_cant": "all inputs", "anchors": ["src/git/protocol/mod.rs:RefCommand"]}
{"id": "C51", "title": "Push then clone returns the history", "statement": "After storing a pack that is closed under reachability (in an empty database, or in a repository with a complete history) a clone of the same path returns a valid pack that has, each once, exactly the commits and all trees and blobs reachable from them.", "quantifier": "all closed object sets (trees of any depth and sharing), all row orders and hash-map orders", "why_tests_cant": "unbounded trees with sharing", "anchors": ["src/gust/driver/database/mysql/storage.rs:save_packfile", "src/gust/driver/database/mysql/storage.rs:get_full_pack_data", "src/gust/driver/database/mysql/storage.rs:get_child_trees", "src/gust/driver/structure/nodes.rs:build_node_tree"]}
{"id": "C52", "title": "Annotated tags survive a push", "statement": "Annotated tag objects contained in a push are returned by a clone. (Violated: tags are dropped.)", "quantifier": "all pushes with tags", "why_tests_cant": "all inputs", "anchors": ["src/gust/driver/database/mysql/storage.rs:save_packfile"]}
{"id": "C53", "title": "Incremental pushes are accepted", "statement": "A push whose new trees refer to objects already stored is accepted. (Violated: a tree entry not contained in the same pack aborts the push.)", "quantifier": "all database states and packs", "why_tests_cant": "all histories", "anchors": ["src/gust/driver/structure/nodes.rs:Repo::build_node_tree"]}
{"id": "C54", "title": "Incremental fetch contains the wanted commits", "statement": "The pack of an incremental fetch contains every wanted commit. (Violated: only its trees and blobs are sent; when nothing matches, the request aborts; clients without multi_ack_detailed get no pack.)", "quantifier": "all databases, wants and haves", "why_tests_cant": "all inputs", "anchors": ["src/gust/driver/database/mysql/storage.rs:get_incremental_pack_data"]}
{"id": "C55", "title": "Reference update moves the named reference and nothing else", "statement": "Updating a reference changes the id of exactly the named reference of the repository. (Holds when no other reference of the repository has the same old id; otherwise another reference may be moved instead.)", "quantifier": "all reference tables and commands", "why_tests_cant": "all tables", "anchors": ["src/gust/driver/database/mysql/storage.rs:update_refs", "src/gust/driver/database/mysql/storage.rs:handle_refs"]}
{"id": "C56", "title": "Batched node insertion", "statement": "Saving nodes inserts every node exactly once and in order, in batches of at most 50 rows. The intended 10 MiB limit per batch is not respected and an empty batch is sent when the first node is large.", "quantifier": "all lists of nodes with all sizes", "why_tests_cant": "unbounded lists", "anchors": ["src/gust/driver/database/mysql/storage.rs:save_nodes"]}
{"id": "C57", "title": "Subdirectory commits", "statement": "The commit generated for a subdirectory keeps author, committer and message, has no parents, points to the node found by name, has an id equal to the hash of its content, and asking for the head again returns the same id without further changes.", "quantifier": "all root commits, trees and database states", "why_tests_cant": "all states", "anchors": ["src/gust/driver/structure/mod.rs:build_from_model_and_root", "src/gust/driver/database/mysql/storage.rs:generate_child_commit_and_refs", "src/gust/driver/database/mysql/storage.rs:get_head_object_id"]}
{"id": "C58", "title": "Subdirectory head is the tree at that path", "statement": "The tree of the commit served for a subdirectory is the tree stored at that path, and follows later pushes. (Violated: the tree is looked up by last path component over all repositories, and an existing child reference is never refreshed.)", "quantifier": "all databases and paths", "why_tests_cant": "all histories", "anchors": ["src/gust/driver/database/mysql/storage.rs:search_root_node_by_path", "src/gust/driver/database/mysql/storage.rs:get_head_object_id"]}
{"id": "C59", "title": "Crash consistency of a push", "statement": "If the server stops at any point during a push whose new id is a commit that is stored or in the pack, every reference still points to a stored commit whose root tree is stored.", "quantifier": "all crash points between database writes, all pushes and prior states", "why_tests_cant": "crash points", "anchors": ["src/git/protocol/pack.rs:git_receive_pack", "src/gust/driver/database/mysql/storage.rs:save_packfile", "src/gust/driver/database/mysql/storage.rs:handle_refs"]}
{"id": "C60", "title": "Failed database writes are not reported as success", "statement": "If storing the commits of a push fails, the reference is not moved and the push is reported as failed. (Violated: insertion results are discarded.)", "quantifier": "all failure patterns of the database", "why_tests_cant": "fault injection over all patterns", "anchors": ["src/gust/driver/database/mysql/storage.rs:batch_save_model", "src/gust/driver/database/mysql/storage.rs:save_commits"]}
{"id": "C61", "title": "LFS locks are exclusive when requests do not overlap", "statement": "For every sequential history of LFS requests, at most one lock exists per path within one ref, a lock request on a locked path is answered with a conflict and changes nothing, and one on a free path is granted and visible afterwards, other refs being unchanged; if the locks of the ref no longer fit the column it is refused and nothing changes.", "quantifier": "all histories of LFS requests of any length, all statement failures", "why_tests_cant": "unbounded histories", "anchors": ["src/git/lfs/http.rs:lfs_create_lock", "src/git/lfs/http.rs:lfs_delete_lock", "src/gust/driver/database/mysql/storage.rs:lfs_add_lock", "src/gust/driver/database/mysql/storage.rs:lfs_delete_lock", "src/gust/driver/database/mysql/storage.rs:lfs_get_filtered_locks"]}
{"id": "C62", "title": "LFS locks are exclusive under concurrency", "statement": "Two concurrent lock requests for one path are never both granted, and a granted lock is never lost. (Violated: check and insertion are separate database operations on a shared row.)", "quantifier": "all interleavings", "why_tests_cant": "schedules", "anchors": ["src/git/lfs/http.rs:lfs_create_lock", "src/gust/driver/database/mysql/storage.rs:lfs_add_lock"]}
{"id": "C63", "title": "Paged lock listing enumerates all locks", "statement": "Following the returned cursors from the start lists every lock exactly once. (Violated: the page that leaves exactly one lock returns no cursor, so the last lock is never listed; all other cases are exact.)", "quantifier": "all lock lists and all page sizes >= 1", "why_tests_cant": "all lengths and limits", "anchors": ["src/gust/driver/database/mysql/storage.rs:lfs_get_filtered_locks", "src/git/lfs/http.rs:lfs_verify_lock"]}
{"id": "C64", "title": "Lock listing honours its query parameters", "statement": "GET locks filters by the path given, starts at the cursor given and respects the limit given. (Violated: cursor and limit are taken from the path parameter, so every query with a path fails unless it equals a lock id, and cursor and limit are ignored.)", "quantifier": "all lock tables and queries", "why_tests_cant": "all inputs", "anchors": ["src/git/lfs/http.rs:lfs_retrieve_lock"]}
{"id": "C65", "title": "Unlock removes exactly the named lock", "statement": "With distinct lock ids, a successful unlock removes exactly the lock with the given id and returns it, and leaves all other locks and all other refs unchanged; an unknown id is an error and changes nothing.", "quantifier": "all lock tables and ids", "why_tests_cant": "all states", "anchors": ["src/gust/driver/database/mysql/storage.rs:lfs_delete_lock", "src/git/lfs/http.rs:lfs_delete_lock"]}
{"id": "C66", "title": "LFS downloads return the content of their id", "statement": "In every history, a downloaded object has the SHA-256 equal to its id. (Holds for histories without failed uploads; violated after a rejected upload, whose bytes stay in the store and may replace good content.)", "quantifier": "all histories of batch, upload, download requests", "why_tests_cant": "unbounded histories", "anchors": ["src/git/lfs/http.rs:lfs_upload_object", "src/git/lfs/http.rs:lfs_process_batch", "src/git/lfs/http.rs:lfs_download_object", "src/gust/driver/lfs_content_store/mod.rs:put"]}
{"id": "C67", "title": "Content store paths", "statement": "Distinct object ids made of lower-case letters and digits are stored at distinct paths, always below the content directory, and ids of five characters or more never need a directory where another content is.", "quantifier": "all pairs of ids", "why_tests_cant": "all pairs", "anchors": ["src/gust/driver/lfs_content_store/mod.rs:transform_key"]}
{"id": "C68", "title": "LFS batch answers", "statement": "For every requested object the batch reply has one entry, in order: a download action if metadata and content exist, otherwise an upload action for uploads (and metadata is recorded), otherwise a 404 error; the links lead back to the same object through the router.", "quantifier": "all batches and store states", "why_tests_cant": "unbounded batches", "anchors": ["src/git/lfs/http.rs:lfs_process_batch", "src/git/lfs/http.rs:represent", "src/git/lfs/structs.rs:internal_link", "src/gateway/api/lib.rs:get_method_router"]}
{"id": "C69", "title": "Repository path from URL", "statement": "Distinct repository URLs denote distinct repositories, and the path is the URL path without the .git suffix and service suffix. (Holds when '.git' and the service suffix occur only at the end; violated otherwise since every occurrence is removed.)", "quantifier": "all URL paths", "why_tests_cant": "all strings", "anchors": ["src/gateway/api/lib.rs:remove_git_suffix"]}
{"id": "C70", "title": "Same repository over SSH and HTTP", "statement": "A repository is the same one whether addressed over SSH or HTTP. (Violated: the SSH path loses its leading slash, so the database keys differ for every repository.)", "quantifier": "all repository names", "why_tests_cant": "all strings", "anchors": ["src/git/protocol/ssh.rs:handle_git_command", "src/gateway/api/lib.rs:remove_git_suffix"]}
{"id": "C71", "title": "Request routing", "statement": "Each request is dispatched to the handler its URL suffix and method denote, LFS routes taking precedence, the object id or lock id handed over is the corresponding path segment, everything else is refused with 403, other methods with 405.", "quantifier": "all URL paths and methods", "why_tests_cant": "all strings", "anchors": ["src/gateway/api/lib.rs:get_method_router", "src/gateway/api/lib.rs:post_method_router", "src/gateway/api/lib.rs:put_method_router"]}
{"id": "C72", "title": "Concurrent pushes do not mix their packs", "statement": "Two pushes handled at the same time each unpack the pack they received. (Violated: the temporary file name only depends on the second.)", "quantifier": "all interleavings", "why_tests_cant": "schedules", "anchors": ["src/git/protocol/pack.rs:git_receive_pack"]}
{"id": "C73", "title": "Any well-formed pack decodes to exactly its objects", "statement": "Every pack in git's format whose entries are whole objects, deltas at a distance, or deltas naming an earlier object (or an object the storage knows) decodes to exactly the objects it denotes: each under its id, at its offset, with the announced count, whatever mixture of entry kinds and delta depths is used.", "quantifier": "all packs below 4 GiB in git's format (bases before deltas), all zlib implementations, all storages, both build modes", "why_tests_cant": "The mixture of entry kinds, chain depths and offsets is unbounded; tests decode a handful of recorded packs.", "anchors": ["src/git/pack/mod.rs:Pack::decode", "src/git/pack/mod.rs:next_object", "src/git/object/delta.rs:apply_delta", "src/git/pack/cache.rs:update"]}
{"id": "C74", "title": "Deltas against a base later in the pack", "statement": "A pack entry that is a delta against an object appearing later in the same pack is decoded. (Violated: decoding aborts, although git allows any order for deltas that name their base by id.)", "quantifier": "all packs with such an entry after any well-formed beginning", "why_tests_cant": "Packs in the test data always put bases first; the defect depends on the order chosen by the sender.", "anchors": ["src/git/pack/mod.rs:next_object"]}
{"id": "C75", "title": "Damaged index files are refused", "statement": "Reading an index file whose magic, version or checksum is wrong fails with an error. (Violated for version and checksum: neither is examined; a file with any version and any last 20 bytes is accepted and yields the same items.)", "quantifier": "all index files, all version numbers, all 20-byte trailers", "why_tests_cant": "all inputs", "anchors": ["src/git/idx/mod.rs:Idx::decode"]}
{"id": "C76", "title": "Index CRCs are those of the pack entries", "statement": "The CRC-32 recorded in the generated index for an object is the CRC-32 of the bytes of its entry in the pack file, as git requires. (Holds for packs written by encode; violated for packs with delta entries: the CRC of a re-encoded whole object is recorded.)", "quantifier": "all packs", "why_tests_cant": "all packs and all zlib streams", "anchors": ["src/git/idx/mod.rs:Idx::encode"]}
{"id": "C77", "title": "Objects git accepts can be read", "statement": "Trees, commits and tags that git itself writes are decoded without aborting. (Violated: file names and messages that are not UTF-8 abort the process, and so do tags without tagger line; all other trees of git's format are read.)", "quantifier": "all contents in git's tree, commit and tag formats, arbitrary bytes in names and messages", "why_tests_cant": "all inputs", "anchors": ["src/git/object/base/tree.rs:decode_metadata", "src/git/object/base/commit.rs:decode_meta", "src/git/object/base/tag.rs:decode_metadata"]}
{"id": "C78", "title": "Packet size of the small side-band", "statement": "When the client negotiated side-band but not side-band-64k, no packet of the reply is longer than 1000 bytes. (Violated: the same chunks of up to 65500 bytes are sent; holds for chunks of at most 995 bytes as over SSH.)", "quantifier": "all packs and chunkings", "why_tests_cant": "Small test packs fit in one packet of less than 1000 bytes; the limit is only exceeded by larger packs with a capability modern clients do not choose.", "anchors": ["src/git/protocol/pack.rs:226-239", "src/git/protocol/http.rs:35-56"]}
{"id": "C79", "title": "LFS batches do not reveal files of the server", "statement": "The reply to a batch request depends only on files below the content directory. (Holds for ids of lower-case letters and digits; violated for ids such as 'aabb/etc/passwd', which name files anywhere.)", "quantifier": "all batches, tables and pairs of file systems that agree below the content directory", "why_tests_cant": "a relation between two executions, for all file systems", "anchors": ["src/git/lfs/http.rs:lfs_process_batch", "src/gust/driver/lfs_content_store/mod.rs:exist", "src/gust/driver/lfs_content_store/mod.rs:transform_key"]}
{"id": "C80", "title": "Fetching changes nothing", "statement": "No fetch or clone, over HTTP or over SSH, changes the database or leaves a file behind, whatever its body and whether it is answered or aborts.", "quantifier": "all states, all request bodies, all sequences of SSH packets", "why_tests_cant": "absence of effects on every path through the handler, including all failures", "anchors": ["src/git/protocol/http.rs:git_upload_pack", "src/git/protocol/ssh.rs:data", "src/git/protocol/pack.rs:git_upload_pack"]}
{"id": "C81", "title": "Nothing stored is ever lost", "statement": "Whatever sequence of requests is served, successful or aborted, every stored tree, blob and commit stays in the database unchanged and every reference keeps existing under its repository and name; this holds of every intermediate state as well.", "quantifier": "all sequences of requests of any length, all intermediate states, all failing statements", "why_tests_cant": "an invariant over all histories and all moments of a crash", "anchors": ["src/gust/driver/database/mysql/storage.rs", "src/gateway/api/lib.rs", "src/git/protocol/ssh.rs"]}
{"id": "C82", "title": "Repositories are isolated", "statement": "A request concerns at most one repository; it adds commits and references of that repository only, moves references of that repository only, and every tree or blob it adds stands under the id of its content. Requests about other repositories leave the commits and references of a repository as they are, at every moment.", "quantifier": "all requests and sequences of requests, all states, all collations", "why_tests_cant": "non-interference between all pairs of repositories over all histories", "anchors": ["src/gateway/api/lib.rs:git_receive_pack", "src/git/protocol/pack.rs:git_receive_pack", "src/gust/driver/database/mysql/storage.rs"]}
{"id": "C83", "title": "A clone does not depend on other repositories", "statement": "A clone of a complete repository contains exactly the objects its commits lead to, whatever has been pushed to other repositories in between.", "quantifier": "all repositories, all sequences of requests about other repositories", "why_tests_cant": "the table of trees and blobs is shared; only a proof covers all contents others can store there", "anchors": ["src/gust/driver/database/mysql/storage.rs:get_full_pack_data", "src/gateway/api/lib.rs"]}
{"id": "C84", "title": "An aborted push moves no reference", "statement": "If a push is not answered with a report, for whatever reason, no reference has been created, moved or removed; and in every state of the database before the last write of a push the references are the old ones. (False in one case: when the read that follows the UPDATE of a reference fails, the push is not answered and the reference has moved.)", "quantifier": "all states, bodies, failing statements and crash points", "why_tests_cant": "all failure points of all executions", "anchors": ["src/git/protocol/pack.rs:git_receive_pack", "src/git/protocol/http.rs:git_receive_pack", "src/gust/driver/database/mysql/storage.rs:update_refs"]}
{"id": "C85", "title": "Push over HTTP, then clone, end to end", "statement": "After a first push of a self-contained history over HTTP, and any requests about other repositories, a clone over HTTP is answered with NAK and a side-band stream of a well-formed pack that contains exactly the objects the pushed commits lead to, each once; the push is reported as ok.", "quantifier": "all histories, repositories, reference names, capabilities, interleaved requests to other repositories, ways of cutting the stream", "why_tests_cant": "composition of gateway, parser, unpacking, storage, traversal, encoding and framing for all inputs", "anchors": ["src/gateway/api/lib.rs", "src/git/protocol/http.rs", "src/git/protocol/pack.rs", "src/gust/driver/database/mysql/storage.rs"]}
{"id": "C86", "title": "The tables stay content-addressed", "statement": "From the empty database on, after any requests and at every moment, every stored tree, blob and commit stands under the SHA-1 id of its content, and reference keys are unique.", "quantifier": "all sequences of requests, all intermediate states, all failing statements", "why_tests_cant": "an invariant over all histories", "anchors": ["src/gust/driver/database/mysql/storage.rs", "src/git/pack/mod.rs", "src/git/protocol/pack.rs"]}
{"id": "C87", "title": "A commit is never visible before its objects", "statement": "Whatever requests are served at the same time, at every moment every stored commit has its root tree and everything that tree leads to stored as well; repositories are complete at every moment.", "quantifier": "all sets of requests, all interleavings of their statements, all failing statements, all moments", "why_tests_cant": "an invariant over all interleavings and all crash points", "anchors": ["src/git/protocol/pack.rs:git_receive_pack", "src/gust/driver/database/mysql/storage.rs:save_packfile", "src/gust/driver/database/mysql/storage.rs:save_nodes", "src/gust/driver/database/mysql/storage.rs:save_commits"]}
{"id": "C88", "title": "A clone during pushes gives a snapshot", "statement": "A clone that is served while other requests change the same repository is, if answered, exactly the complete content the repository had at one moment between the beginning of the clone and its answer.", "quantifier": "all repositories, all other requests, all interleavings", "why_tests_cant": "linearizability over all interleavings of a traversal of many statements", "anchors": ["src/gust/driver/database/mysql/storage.rs:get_full_pack_data", "src/gust/driver/database/mysql/storage.rs:get_child_trees", "src/git/protocol/http.rs:git_upload_pack"]}
{"id": "C89", "title": "Isolation and durability also hold of requests served at once", "statement": "Of requests served at the same time in any order of their statements: nothing stored is lost, each change is made by one request to its own repository, requests about other repositories leave a repository as it is, the tables stay content-addressed; a request served alone behaves as in the sequential model.", "quantifier": "all sets of requests, all interleavings, all failing statements, all moments", "why_tests_cant": "non-interference over all interleavings", "anchors": ["src/gust/driver/database/mysql/storage.rs", "src/git/protocol/pack.rs", "src/gateway/api/lib.rs", "src/git/protocol/ssh.rs"]}
{"id": "C90", "title": "No update is lost", "statement": "Of two pushes that update the same reference from the same old id, at most one is answered with ok; an update that is answered with ok found its old id.", "quantifier": "all pairs of pushes, all interleavings", "why_tests_cant": "a race that needs two statements of another push between two statements of one", "anchors": ["src/gust/driver/database/mysql/storage.rs:update_refs", "src/git/protocol/pack.rs:git_receive_pack"]}
{"id": "C91", "title": "Pushes at the same time do not mix", "statement": "Two pushes to different repositories that arrive at the same time store their own objects and are answered correctly.", "quantifier": "all pairs of pushes, all times of arrival, all interleavings", "why_tests_cant": "depends on the second of arrival and on the order of file operations of two tasks", "anchors": ["src/git/protocol/pack.rs:git_receive_pack"]}
{"id": "C92", "title": "A push is unaffected by what else is served", "statement": "A push of a complete history that creates a reference is answered with ok and stores its rows and its reference, whatever other requests are served at the same time in whatever order, as long as none arrives in the same second; if the others are about other repositories, the references of the repository end exactly as when the push is served alone. The same for an update of the only reference with the old id.", "quantifier": "all histories, all sets of other requests, all interleavings", "why_tests_cant": "all interleavings of a push of any size with any number of other requests", "anchors": ["src/git/protocol/pack.rs:git_receive_pack", "src/gust/driver/database/mysql/storage.rs:save_packfile", "src/gust/driver/database/mysql/storage.rs:handle_refs"]}
{"id": "C93", "title": "Every request comes to an end", "statement": "A request whose turn comes again and again ends after finitely many steps, with an outcome that no longer changes, whatever the other requests do: no request waits for another, none starves another by changing the database. A push that has its second to itself is answered with ok for good.", "quantifier": "all sets of requests, all fair infinite schedules", "why_tests_cant": "liveness over infinite executions", "anchors": ["src/git/protocol/pack.rs", "src/gust/driver/database/mysql/storage.rs", "src/gateway/api/lib.rs", "src/git/protocol/ssh.rs"]}
{"id": "C94", "title": "Any JSON spelling of a git-lfs request is understood as meant", "statement": "A lock, unlock, verify or batch request is understood with exactly the values it says, however its JSON is spelled: any blanks, any escapes (\\uXXXX and surrogate pairs included), members in any order, further members of any shape. A body that is not JSON is never taken, and no body has two meanings.", "quantifier": "all request bodies, all spellings of all values", "why_tests_cant": "infinitely many spellings of each request, nested to any depth", "anchors": ["src/git/lfs/structs.rs", "src/git/lfs/http.rs:lfs_create_lock", "src/git/lfs/http.rs:lfs_delete_lock", "src/git/lfs/http.rs:lfs_verify_lock", "src/git/lfs/http.rs:lfs_process_batch"]}
{"id": "C95", "title": "Members that the git-lfs API makes optional may be left out", "statement": "A lock, unlock or verify request without `ref` and a batch request without `transfers`, both allowed by the git-lfs API, are answered.", "quantifier": "all such requests, all server states", "why_tests_cant": "the API allows them in every state with any other members", "anchors": ["src/git/lfs/structs.rs:LockRequest", "src/git/lfs/structs.rs:UnlockRequest", "src/git/lfs/structs.rs:VerifiableLockRequest", "src/git/lfs/structs.rs:BatchVars"]}
{"id": "C96", "title": "Successful git-lfs replies are JSON of the shape of the API", "statement": "Whenever a list, verify, lock, unlock or batch request succeeds, the body of the reply is a JSON document with the members the git-lfs API names, whose values are those of the locks and objects replied, whatever characters paths, owners, names and links contain.", "quantifier": "all reachable states, all requests, all strings", "why_tests_cant": "all strings that need escaping, in all members of all replies", "anchors": ["src/git/lfs/http.rs", "src/git/lfs/structs.rs:LockList", "src/git/lfs/structs.rs:VerifiableLockList", "src/git/lfs/structs.rs:LockResponse", "src/git/lfs/structs.rs:BatchResponse"]}
{"id": "C97", "title": "Errors are JSON with a message", "statement": "A git-lfs request that fails is answered with a JSON document with a `message`, as the git-lfs API asks.", "quantifier": "all requests, all states", "why_tests_cant": "all ways to fail", "anchors": ["src/git/lfs/http.rs", "src/gateway/api/lib.rs"]}
{"id": "C98", "title": "Stored locks come back as they were stored", "statement": "Writing a list of locks to the column `data` and reading it back gives the same locks, for any UTF-8 in ids, paths, times and owners (quotes, backslashes, control characters, any script); a column written by another JSON writer is read as it is meant.", "quantifier": "all lists of locks, all UTF-8 strings, all spellings", "why_tests_cant": "all strings and all lists", "anchors": ["src/gust/driver/database/mysql/storage.rs:lfs_add_lock", "src/gust/driver/database/mysql/storage.rs:lfs_get_locks", "src/gust/driver/database/mysql/storage.rs:lfs_delete_lock"]}
{"id": "C99", "title": "A push stores one row per commit root and one per object in its trees, with name, type and mode of an entry", "statement": "The node rows added by a push are: for each commit of the pack exactly one nameless tree row with the id of its root, and for each object named in a tree of the pushed history exactly one row, which has the id, the type, the file name and the mode of an entry of those trees. Nothing else is added, and each commit gets exactly one commit row.", "quantifier": "all histories (any number of commits, any nesting and sharing of trees), all packs of them, all database states", "why_tests_cant": "trees nest without bound and share subtrees in any way; rows are built by recursion with a cache", "anchors": ["src/gust/driver/structure/nodes.rs:build_node_tree", "src/gust/driver/structure/nodes.rs:convert_node_to_model", "src/gust/driver/database/mysql/storage.rs:save_packfile"]}
{"id": "C100", "title": "Every file and directory of a pushed commit is stored under its own name", "statement": "For every entry of every tree of a pushed history the database has a row with the id, the name and the mode of that entry.", "quantifier": "all histories, all packs of them, all database states", "why_tests_cant": "depends on which entries share their content, in any two trees of the history", "anchors": ["src/gust/driver/structure/nodes.rs:build_node_tree", "src/gust/driver/structure/nodes.rs:convert_node_to_model"]}
{"id": "C101", "title": "The greeting over SSH gives the head and the references of the named repository", "statement": "The command `git-upload-pack '/name.git'` or `git-receive-pack '/name.git'` is answered with the reference advertisement of the repository `name`, without the HTTP preamble: the all-zero id if nothing is stored under the name, else the id of its master reference, then one line per stored reference. The database is not changed.", "quantifier": "all repository names without blank, both services, all database states", "why_tests_cant": "names and stored references are unbounded; the command is cut by fixed offsets", "anchors": ["src/git/protocol/ssh.rs:handle_git_command", "src/git/protocol/pack.rs:git_info_refs"]}
{"id": "C102", "title": "A push over SSH stores what the same push over HTTP stores", "statement": "When the client sends the command line with a flush and then the pack, the rows of the pushed history and of the reference are added (or the reference is moved), nothing else changes, and the reply is the report that the reference is ok.", "quantifier": "all histories, all packs of them, all database states, all reference names and ids", "why_tests_cant": "packs, histories and states are unbounded; the session carries state from one packet to the next", "anchors": ["src/git/protocol/ssh.rs:data", "src/git/protocol/pack.rs:git_receive_pack"]}
{"id": "C103", "title": "What was pushed over SSH can be cloned over SSH", "statement": "After the first push of the master branch of a repository over SSH, and any requests about other repositories, a client that connects to clone is told the pushed head and gets a pack of exactly the history that was pushed.", "quantifier": "all histories, all sequences of requests about other repositories in between, all states without that repository", "why_tests_cant": "unbounded histories and unbounded interleaved requests; an end-to-end statement over three connections", "anchors": ["src/git/protocol/ssh.rs:data", "src/git/protocol/pack.rs:git_receive_pack", "src/git/protocol/pack.rs:git_upload_pack"]}
{"id": "C104", "title": "The effect of an SSH session does not depend on how its bytes are cut into packets", "statement": "Two sessions in which the client sends the same bytes have the same effect on the database and the same reply, however the bytes are distributed over data packets.", "quantifier": "all byte strings and all ways to cut them, all states", "why_tests_cant": "the cut is chosen by the client and the network; there are exponentially many", "anchors": ["src/git/protocol/ssh.rs:data", "src/git/protocol/pack.rs:git_receive_pack", "src/git/protocol/pack.rs:git_upload_pack"]}
{"id": "C105", "title": "A push that is cut short stores nothing", "statement": "If only a proper prefix of a push arrives, the database is not changed, no reference moves, no file but the temporary file of the push changes, and the client gets no report that the push succeeded. In particular the pack decoder accepts no proper prefix of a pack.", "quantifier": "all pushes of one reference, all packs, every position of the cut, all states", "why_tests_cant": "every byte position of every pack; the decoder has to fail at each of them", "anchors": ["src/git/protocol/pack.rs:git_receive_pack", "src/git/pack/mod.rs:decode", "src/git/pack/mod.rs:next_object"]}
{"id": "C106", "title": "Repositories end at directory boundaries", "statement": "A path with no reference of its own is answered from a stored repository exactly when it is that repository's path followed by a slash and more (up to repeated slashes and single dots). Otherwise the reply is the advertisement of an empty repository and nothing is stored; so /demolition is never answered from /demo. When it is answered, the request succeeds and stores one reference of its own for the path.", "quantifier": "all databases, paths, stored references, LIKE operators, collations and row orders", "why_tests_cant": "all paths and stored paths; the rows that LIKE returns depend on the server's collation and wildcards", "anchors": ["src/gust/driver/database/mysql/storage.rs:get_head_object_id", "src/gust/driver/database/mysql/storage.rs:search_refs", "src/git/protocol/pack.rs:git_info_refs"]}
{"id": "C107", "title": "Of nested repositories the nearest answers", "statement": "When several stored repositories contain a path, the commit served for the path comes from the innermost of them. (Violated: the first row the database returns decides, so the outer repository may answer.)", "quantifier": "all databases, paths and row orders", "why_tests_cant": "all nestings and row orders", "anchors": ["src/gust/driver/database/mysql/storage.rs:get_head_object_id", "src/gust/driver/database/mysql/storage.rs:generate_child_commit_and_refs"]}
{"id": "C108", "title": "Comparing objects", "statement": "The order of commits, tags, trees and blobs is a total order, == is an equivalence, two values compare as equal exactly when they are ==, and different objects are not ==. (Violated: == of commits and tags compares sizes only, == of trees and blobs compares names only, which are empty after decoding.)", "quantifier": "all pairs and triples of decoded objects", "why_tests_cant": "laws over all pairs and triples", "anchors": ["src/git/object/base/commit.rs:cmp", "src/git/object/base/tag.rs:cmp", "src/git/object/base/tree.rs:cmp", "src/git/object/base/blob.rs:cmp"]}
{"id": "C109", "title": "Channels of one SSH connection do not interfere", "statement": "A client may open several channels on one SSH connection, each with a command of its own. What is sent on one channel concerns the repository and service of the command given on that channel, in whatever order the packets of the channels arrive. (Violated: the server keeps one repository and service per connection, that of the latest command on any channel.)", "quantifier": "all numbers of channels, all commands, all interleavings of packets, all server states", "why_tests_cant": "needs all interleavings of the events of several channels", "anchors": ["src/git/protocol/ssh.rs:exec_request", "src/git/protocol/ssh.rs:data", "src/git/protocol/ssh.rs:handle_git_command"]}
{"id": "C110", "title": "Only clients with an allowed credential can push over SSH", "statement": "Whether a client may push depends on the password or key it offers: with a wrong one nothing is stored. (Violated: every password and every key is accepted. A client that offers neither changes nothing.)", "quantifier": "all credentials, all later events, all server states", "why_tests_cant": "universal over credentials and over what the client does afterwards", "anchors": ["src/git/protocol/ssh.rs:auth_publickey", "src/git/protocol/ssh.rs:auth_password"]}
{"id": "C111", "title": "The SSH host key stays the same across restarts", "statement": "The server writes a host key on its first start and presents the same key on all later starts. (Holds unless the first start is cut short between creating the file and writing all 64 bytes: then no later start succeeds.)", "quantifier": "all generated keys, all numbers of restarts, all points at which a start is cut short", "why_tests_cant": "unboundedly many restarts; every crash point", "anchors": ["src/gateway/ssh_server.rs:load_key", "src/gateway/ssh_server.rs:server"]}
{"id": "C112", "title": "Fetches of limited depth", "statement": "A fetch that asks for a limited depth (deepen, deepen-since, deepen-not, shallow) gets only commits within that depth, and the reply begins by naming the commits whose parents are left out. (Violated: such lines are ignored; the reply holds the whole history and names no such commits.)", "quantifier": "all requests, all histories, all server states, HTTP and SSH", "why_tests_cant": "universal over requests and histories", "anchors": ["src/git/protocol/pack.rs:git_upload_pack", "src/git/protocol/http.rs:git_upload_pack"]}
{"id": "C113", "title": "The server answers as a store of references and objects", "statement": "For the clients of one repository the server behaves as a list of references and a set of objects: a push of a new reference or of an update adds its objects and its reference, the advertisement shows the references, and a clone returns exactly the objects that the commits pushed so far lead to, each once. This holds after any number of pushes over HTTP and SSH, with any requests about other repositories and any fetches in between; an update from an id that no reference has any more is not answered, moves nothing, and what it brought stays.", "quantifier": "all sequences of requests, all histories, all repositories, HTTP and SSH", "why_tests_cant": "refinement over unboundedly long sequences of requests of unboundedly many clients", "anchors": ["src/git/protocol/pack.rs:git_receive_pack", "src/git/protocol/pack.rs:git_upload_pack", "src/git/protocol/pack.rs:git_info_refs", "src/gust/driver/database/mysql/storage.rs:get_full_pack_data"]}
{"id": "C114", "title": "An object by its id", "statement": "Reading an object of the object directory by its id returns the object stored under this id, of whatever kind, or reports that it is damaged; what is returned always hashes to the id. (Only commits are ever returned, and nothing when ids are printed in colour.)", "quantifier": "all object directories, all ids, all contents, with and without colour", "why_tests_cant": "unboundedly many contents; the integrity statement is about every possible file, also damaged ones", "anchors": ["src/git/object/delta.rs:read_object", "src/git/object/delta.rs:read_unpacked_object", "src/git/object/delta.rs:parse_decimal", "src/git/hash.rs:fmt"]}
{"id": "C115", "title": "Objects parsed from files", "statement": "An object written to the object directory is parsed back from its file with the same fields, and a file that holds an object of another kind is refused. (The kind is not checked.)", "quantifier": "all well-formed blobs, trees and commits, all object directories", "why_tests_cant": "unboundedly many objects", "anchors": ["src/git/object/base/blob.rs:parse_from_file", "src/git/object/base/commit.rs:parse_from_file", "src/git/object/base/tree.rs:parse_from_file", "src/git/object/base/mod.rs:parse_meta"]}
{"id": "C116", "title": "The objects a client lacks", "statement": "Given a commit and the commits a client has, the search for a common base returns the commits, trees and blobs between them. (It returns nothing or panics.)", "quantifier": "all object directories, commits and lists of ids", "why_tests_cant": "unboundedly many histories", "anchors": ["src/git/protocol/pack.rs:find_common_base", "src/git/protocol/pack.rs:parse_tree"]}
{"id": "C117", "title": "Pack directories", "statement": "All packs of a directory are found whatever other files it holds, and decoding them gives all their objects whatever the order of the listing and the times of creation. (A short file name, a missing time of creation, or a delta against a base in a pack created later make it panic.)", "quantifier": "all directories, listings and times of creation", "why_tests_cant": "unboundedly many directories; the order of a listing is chosen by the operating system", "anchors": ["src/git/utils.rs:find_all_pack_file", "src/git/utils.rs:get_hash_form_filename", "src/git/pack/multidecode.rs:multi_decode", "src/git/pack/multidecode.rs:cmp"]}
{"id": "C118", "title": "Heads of responses", "statement": "A client can tell from the head of a response what it is: discovery answers with the content type application/x-git-…-advertisement of the service asked for and begins with its announcement line; fetches and pushes answer with application/x-git-…-result and may not be cached; the API of git-lfs answers with JSON of the git-lfs type, or with an error in words; a lock that was taken is answered with 201; what is offered nowhere is refused with 403, or with 404 where the path is none, or with 405 and the list of methods, and nothing changes.", "quantifier": "all requests, all states of the server, whether or not the database fails", "why_tests_cant": "the statement is about every response that any state and request produce", "anchors": ["src/gateway/api/lib.rs:get_method_router", "src/gateway/api/lib.rs:post_method_router", "src/gateway/api/lib.rs:put_method_router", "src/git/protocol/http.rs:build_res_header", "src/git/lfs/http.rs:lfs_retrieve_lock"]}
{"id": "C119", "title": "Queries", "statement": "The handlers are given the values that the fields of the query spell, whatever the order of the fields and however they are escaped; a field that comes twice is refused and nothing is done; the values are always valid text; requests other than GET do not depend on the query; in a query that is no valid text every broken character becomes one replacement character and a percent sign that starts no escape stands for itself.", "quantifier": "all queries, all spellings, all requests and states", "why_tests_cant": "every text has unboundedly many spellings", "anchors": ["src/gateway/api/lib.rs:get_method_router", "src/gateway/api/lib.rs:GetParams"]}
{"id": "C120", "title": "Reading is safe", "statement": "A GET request changes nothing that is stored. (Discovery of a directory below a repository stores a commit and a reference.) No sequence of HTTP requests loses a reference or object.", "quantifier": "all requests, sequences of requests and states", "why_tests_cant": "all states and sequences of requests", "anchors": ["src/gateway/api/lib.rs:get_method_router", "src/git/protocol/pack.rs:git_info_refs", "src/gust/driver/database/mysql/storage.rs:get_head_object_id"]}
{"id": "C121", "title": "Repeated uploads", "statement": "An upload to git-lfs that is sent twice leaves what it leaves sent once; if it was accepted it is accepted again, if it was not it is not.", "quantifier": "all states, URLs and contents, all names of temporary files", "why_tests_cant": "all states and contents", "anchors": ["src/gateway/api/lib.rs:put_method_router", "src/git/lfs/http.rs:lfs_upload_object", "src/gust/driver/lfs_content_store/mod.rs:put"]}
{"id": "C122", "title": "Every request is answered", "statement": "Every HTTP request is answered with a response while the database works. (The connection is closed without one for unknown object ids, locks without a reference, discovery without a service and others; for most kinds of requests the theorems say exactly for which.)", "quantifier": "all requests and states", "why_tests_cant": "all requests; a panic closes the connection only for particular ones", "anchors": ["src/gateway/api/lib.rs:get_method_router", "src/gateway/api/lib.rs:post_method_router", "src/git/lfs/http.rs:lfs_retrieve_lock", "src/git/lfs/http.rs:lfs_create_lock", "src/git/lfs/http.rs:lfs_delete_lock", "src/git/lfs/http.rs:lfs_verify_lock", "src/git/lfs/http.rs:lfs_download_object", "src/git/lfs/http.rs:lfs_upload_object", "src/git/lfs/http.rs:lfs_process_batch"]}
{"id": "C123", "title": "Escapes in URLs", "statement": "URLs that are two spellings of one URL (RFC 3986) name the same repository. (The path of the URL is never decoded.)", "quantifier": "all paths and all their spellings", "why_tests_cant": "every path has many spellings", "anchors": ["src/gateway/api/lib.rs:remove_git_suffix", "src/gateway/api/lib.rs:get_method_router"]}
{"id": "C124", "title": "The lock server is a book of locks", "statement": "Seen from outside, the lock API is a book that has for each ref the list of held locks, earliest first: every history of requests, with its replies, is a history of the book. A lock that was granted is held until a request unlocks its number on that ref: until then the path is refused to others and the listing of the ref shows the lock.", "quantifier": "all histories of requests from a server without locks (C124_book), all reachable states and all histories that do not unlock the lock (C124_held)", "why_tests_cant": "all histories of requests; refinement of a serialised column to lists of locks", "anchors": ["src/git/lfs/http.rs:lfs_create_lock", "src/git/lfs/http.rs:lfs_delete_lock", "src/git/lfs/http.rs:lfs_retrieve_lock", "src/git/lfs/http.rs:lfs_verify_lock", "src/gust/driver/database/mysql/storage.rs:lfs_add_lock", "src/gust/driver/database/mysql/storage.rs:lfs_get_filtered_locks"]}
{"id": "C125", "title": "LFS contents that were accepted stay", "statement": "A content whose upload was answered 200 stays in the store, whatever requests come later or at the same time: every later download of its id brings exactly this content.", "quantifier": "all interleavings of all requests that do not upload the object (C125_stays), all histories whose uploads of the object carry its content (C125_again), all states and uploads (C125_accepted)", "why_tests_cant": "all orders in which statements and file operations of any number of requests can take place", "anchors": ["src/git/lfs/http.rs:lfs_upload_object", "src/git/lfs/http.rs:lfs_download_object", "src/git/lfs/http.rs:lfs_process_batch", "src/gust/driver/lfs_content_store/mod.rs:put", "src/gust/driver/lfs_content_store/mod.rs:get", "src/gust/driver/database/mysql/storage.rs:lfs_delete_meta"]}
{"id": "C126", "title": "Uploading one LFS content twice at once does no harm", "statement": "When several clients upload the same content at the same time, all uploads are accepted, the content is stored afterwards, and downloads in the meantime bring the whole content.", "quantifier": "all interleavings of any requests in which uploads of the object carry its content", "why_tests_cant": "all schedules of file creation, write and read of any number of requests", "anchors": ["src/git/lfs/http.rs:lfs_upload_object", "src/git/lfs/http.rs:lfs_download_object", "src/gust/driver/lfs_content_store/mod.rs:put", "src/gust/driver/lfs_content_store/mod.rs:get"]}
{"id": "C127", "title": "LFS requests about other things are not noticed", "statement": "A git-lfs request that is served at the same time as requests about other refs and other objects is answered exactly as if it were served alone, and leaves the same locks for its ref and the same record and file for its objects.", "quantifier": "all interleavings of all requests; ids of objects have at least five characters; no statement fails", "why_tests_cant": "all schedules of any number of concurrent requests; non-interference", "anchors": ["src/git/lfs/http.rs:lfs_create_lock", "src/git/lfs/http.rs:lfs_delete_lock", "src/git/lfs/http.rs:lfs_process_batch", "src/git/lfs/http.rs:lfs_upload_object", "src/git/lfs/http.rs:lfs_download_object", "src/gust/driver/database/mysql/storage.rs:lfs_add_lock", "src/gust/driver/database/mysql/storage.rs:lfs_put_meta", "src/gust/driver/lfs_content_store/mod.rs:put"]}
{"id": "C128", "title": "LFS batches at the same time are all answered", "statement": "Clients that announce objects in batches at the same time are all answered 200 with an entry for each object, also when they announce the same objects.", "quantifier": "all interleavings of batches with requests about other objects (C128_apart), and with any requests when the objects have rows (C128_known)", "why_tests_cant": "all schedules of the SELECT and INSERT of any number of batches", "anchors": ["src/git/lfs/http.rs:lfs_process_batch", "src/gust/driver/database/mysql/storage.rs:lfs_put_meta", "src/gust/driver/database/mysql/storage.rs:lfs_get_meta"]}
{"id": "C129", "title": "Pushes that are sent again", "statement": "A client that did not get the answer to a push may send it again: afterwards the repository has the references and objects it had after the first time, and later pushes work as if it had been sent once.", "quantifier": "all pushes of one reference over HTTP and SSH, all histories of the server before", "why_tests_cant": "depends on every history of the server and on what happens after the repetition", "anchors": ["src/gust/driver/database/mysql/storage.rs:save_refs", "src/gust/driver/database/mysql/storage.rs:update_refs", "src/gust/driver/database/mysql/storage.rs:get_ref_object_id", "src/git/protocol/pack.rs:git_receive_pack"]}
{"id": "C130", "title": "The lock API over HTTP is a book of locks", "statement": "Every history of HTTP requests with its responses, as bytes on the wire, is a history of the book of locks of C124: what a request asks is what its JSON body or query says however it is spelled, the response says in JSON what the book answers, and all other requests leave the book alone. A client whose request for a lock is answered 201 finds its lock, with the number and time it was given, in the response and in every listing, and everybody else is refused the path with 409, until a request asks to free that number on that ref.", "quantifier": "all histories of HTTP requests to the whole server, from a server without locks (C130_wire); all reachable states, spellings and later histories (C130_held)", "why_tests_cant": "all histories and all spellings of requests; refinement through routing, JSON and the serialised column", "anchors": ["src/gateway/api/lib.rs:get_method_router", "src/gateway/api/lib.rs:post_method_router", "src/git/lfs/http.rs:lfs_create_lock", "src/git/lfs/http.rs:lfs_delete_lock", "src/git/lfs/http.rs:lfs_retrieve_lock", "src/git/lfs/http.rs:lfs_verify_lock"]}
{"id": "C131", "title": "The content API over HTTP is a shelf of contents", "statement": "Every history of HTTP requests with its responses, as bytes on the wire, is a history of a shelf that holds announced sizes and filed contents: an upload batch announces sizes of ids that have none, a batch offers each filed content for download under its announced size and asks for the others, or reports them missing; a PUT of the announced size and right hash files the content and answers 200; a wrong one answers 406 and withdraws the announcement; a GET answers with the filed content; all other requests leave the shelf alone. The tables and the content directory hold what the shelf says.", "quantifier": "all histories of HTTP requests to the whole server, from a server without contents, all spellings of JSON bodies and queries", "why_tests_cant": "all histories and all spellings of requests; refinement through routing, JSON, the metadata table and the sharded directory", "anchors": ["src/gateway/api/lib.rs:put_method_router", "src/gateway/api/lib.rs:get_method_router", "src/gateway/api/lib.rs:post_method_router", "src/git/lfs/http.rs:lfs_process_batch", "src/git/lfs/http.rs:lfs_upload_object", "src/git/lfs/http.rs:lfs_download_object", "src/git/lfs/structs.rs:MetaObject"]}
{"id": "C132", "title": "git lfs push, then git lfs pull", "statement": "An upload batch with sizes that the table holds is answered 200. When everybody who announces an object gives its size and everybody who sends it sends its content: after an answered upload batch that names it, a PUT of the object is answered 200; after a PUT answered 200, every later GET by whoever is answered 200 with exactly the content, and every later batch that is answered offers the object for download with its size; an upload batch before the first PUT asks for the object; and no GET ever answers with another content.", "quantifier": "all objects, all histories of HTTP requests of all kinds in any order by any number of clients, from a server without contents", "why_tests_cant": "all histories: any other requests may come between announcing, sending and fetching", "anchors": ["src/git/lfs/http.rs:lfs_process_batch", "src/git/lfs/http.rs:lfs_upload_object", "src/git/lfs/http.rs:lfs_download_object", "src/gateway/api/lib.rs:put_method_router"]}
{"id": "C133", "title": "Names that differ in case are kept apart", "statement": "Repositories, and refs of locks, whose names differ only in the case of letters have nothing to do with each other. (False under MySQL's default collation: one name's references, objects and locks are served and changed under the other name.)", "quantifier": "all pairs of names that differ in case only, all states, all fetches, update pushes and lock requests", "why_tests_cant": "a test database compares exactly or uses one spelling; the statement is about all pairs of spellings and all states", "anchors": ["src/gateway/api/lib.rs:post_method_router", "src/git/protocol/http.rs:git_upload_pack", "src/git/protocol/pack.rs:git_receive_pack", "src/git/protocol/pack.rs:git_info_refs", "src/git/lfs/http.rs:lfs_create_lock", "src/git/lfs/http.rs:lfs_retrieve_lock"]}
{"id": "C134", "title": "Failed database statements in git-lfs", "statement": "A git-lfs request of which a database statement failed is never answered as done, and it leaves everything as it was. (The second half is false when the read after an UPDATE fails: the client is told 500 and the lock is stored, or removed, all the same.)", "quantifier": "all git-lfs requests, all states, every position of the failing statement, all later failures", "why_tests_cant": "needs a failure at each database statement of each request in each state", "anchors": ["src/git/lfs/http.rs:lfs_create_lock", "src/git/lfs/http.rs:lfs_delete_lock", "src/git/lfs/http.rs:lfs_process_batch", "src/git/lfs/http.rs:lfs_upload_object", "src/gust/driver/database/mysql/storage.rs:lfs_add_lock"]}
{"id": "C135", "title": "Deltas against objects that the server has", "statement": "A pushed pack may contain deltas whose base is not in the pack but stored by the server, in whatever repository: the objects are rebuilt from the stored content and the push goes as if they had been sent whole; a base that the server does not have leaves the push unanswered and nothing stored. (False for commits and tags: the server only looks among trees and blobs, so a commit as a delta against a stored commit makes the push fail.)", "quantifier": "all databases whose rows are stored under their ids, all packs, bases, deltas, orders of the answers of the database", "why_tests_cant": "which bases a client chooses depends on the histories on both sides; all stored contents and all deltas", "anchors": ["src/gust/driver/database/mysql/storage.rs:get_hash_object", "src/git/pack/mod.rs:next_object", "src/git/protocol/pack.rs:git_receive_pack"]}
{"id": "C136", "title": "Packing a directory, and packing again what was unpacked", "statement": "Packing the loose objects of a directory, alone or merged with the first pack there, writes one new file called pack-<checksum>.pack and changes nothing else; files of an unknown kind among the loose objects are left out silently, a file name of less than four bytes met before any pack aborts the merge; packing again the objects of a decoded pack gives a pack of the same objects, each once, and keeps the cache.", "quantifier": "all directories, loose objects, stray files, packs (with deltas), compressors that invert", "why_tests_cant": "all directory contents and all packs; sizes, deltas and repetitions are unbounded", "anchors": ["src/git/pack/encode.rs:pack_loose_from_dir", "src/git/pack/encode.rs:pack_object_dir", "src/git/pack/encode.rs:find_pack_file", "src/git/object/metadata.rs:read_object_from_file"]}
{"id": "C137", "title": "What does not fit the columns of the database", "statement": "A push answered with ok has created its reference and stored its commits however long the names and however large the objects are; what the columns cannot hold is refused. (Violated: reference names over 31 characters, repository paths over 64, and commits over 65535 bytes are dropped silently; trees and blobs that do not fit do abort the push.)", "quantifier": "all pushes, names, paths, object graphs and database states", "why_tests_cant": "all lengths and graphs; the loss is silent and depends on how commits fall into chunks", "anchors": ["src/gust/driver/database/mysql/storage.rs:batch_save_model", "src/gust/driver/database/mysql/storage.rs:save_refs", "src/gust/driver/database/mysql/storage.rs:save_commits", "src/gust/driver/database/mysql/storage.rs:save_nodes"]}
{"id": "C138", "title": "Git requests while statements of the database fail", "statement": "A git request during which statements of the database fail is aborted, or it has the reply and the effect that it has when none fails. (Holds for fetches over HTTP and SSH and for discoveries outside other repositories; of pushes it holds that one that is not aborted has stored its trees and blobs. Violated for the references and commits of pushes, and for discoveries below a repository, whose INSERT is not checked.)", "quantifier": "all requests, packets, database states and patterns of failing statements", "why_tests_cant": "every statement of every request may be the one that fails; a database that fails now and then is not at hand in a test", "anchors": ["src/gust/driver/database/mysql/storage.rs:get_full_pack_data", "src/gust/driver/database/mysql/storage.rs:get_head_object_id", "src/gust/driver/database/mysql/storage.rs:get_ref_object_id", "src/gust/driver/database/mysql/storage.rs:save_nodes", "src/gust/driver/database/mysql/storage.rs:save_refs"]}
{"id": "C139", "title": "Only what the bytes of a pack say is accepted", "statement": "A pack that decodes without an error is one its bytes describe: header, as many consecutive entries as announced, each whole object of its declared size, each delta entry of its declared size leading from another entry of the pack (or an object of the storage) to its object, and exactly the objects of the entries in the cache, each under its id. (Violated: the declared size of deltas is ignored, and bases may lie inside other entries, adding objects beyond the announced number. The rest holds for all files.)", "quantifier": "all byte strings, decompressors, storages and build modes", "why_tests_cant": "all inputs the decoder accepts, including forged ones; tests decode packs that git wrote", "anchors": ["src/git/pack/mod.rs:Pack::decode", "src/git/pack/mod.rs:next_object", "src/git/object/delta.rs:apply_delta", "src/git/pack/cache.rs:update"]}
{"id": "C140", "title": "Git requests leave no files behind", "statement": "After a git request has been served, however it ended, the files of the server are what they were before it. (Violated by pushes that are aborted once their pack is written: the temporary file stays, and within the same second a push that is cut short is completed from it. Holds of answered requests; and one aborted request leaves at most one file.)", "quantifier": "all sequences of requests over HTTP and SSH, all contents, all states, all failing statements", "why_tests_cant": "all requests and all the places where one can be aborted; files that pile up are only seen over long runs", "anchors": ["src/git/protocol/pack.rs:git_receive_pack", "src/git/protocol/http.rs:git_receive_pack", "src/git/protocol/ssh.rs:data"]}
{"id": "C141", "title": "An SSH address names one repository", "statement": "Two addresses of a repository used over SSH name the same repository exactly when they are the same but for a final .git. (Violated for addresses without .git, of which the last four letters are dropped, and for names with spaces; holds for addresses with .git and without spaces.)", "quantifier": "all names, all commands a client can send, all sessions that follow, all database states", "why_tests_cant": "pairs of arbitrary names; the code slices by position, which looks right for every address that ends in .git", "anchors": ["src/git/protocol/ssh.rs:handle_git_command", "src/git/protocol/ssh.rs:exec_request"]}
{"id": "C142", "title": "Request bodies that arrive in pieces or not to the end", "statement": "The response to an HTTP request and its effect depend on the bytes of its body and not on how they arrive; and a request whose body breaks off changes nothing.", "quantifier": "all methods, URLs, bodies, ways of cutting them and places where they break off, all states and failing statements", "why_tests_cant": "unit tests send bodies whole; connections cut and break where they please", "anchors": ["src/git/protocol/http.rs:git_receive_pack", "src/git/protocol/http.rs:git_upload_pack", "src/git/lfs/http.rs:lfs_upload_object", "src/git/lfs/http.rs:lfs_process_batch", "src/git/lfs/http.rs:lfs_create_lock", "src/git/lfs/http.rs:lfs_delete_lock", "src/git/lfs/http.rs:lfs_verify_lock"]}
{"id": "C143", "title": "Capabilities a client names", "statement": "The server does for a client what the capabilities it named ask for and nothing else: words the server does not know, and their order and number, have no consequence, and a status report is sent only to a client that asked for it. (Violated: the report is sent without report-status.)", "quantifier": "all capability lists, requests, states and failing statements, HTTP and SSH", "why_tests_cant": "the sets of words clients send are unbounded and vary with their versions", "anchors": ["src/git/protocol/pack.rs:parse_capabilities", "src/git/protocol/pack.rs:build_side_band_format", "src/git/protocol/pack.rs:git_upload_pack", "src/git/protocol/pack.rs:git_receive_pack"]}
{"id": "C144", "title": "A name stands for one reference", "statement": "In a repository each reference name stands for one reference: a push that creates a name that is already there is refused, and no request makes a name stand for two commits. (Violated: such a push is answered ok and inserts a second row.)", "quantifier": "all states, requests, sequences of requests and failing statements, HTTP and SSH", "why_tests_cant": "it is an invariant over all histories of requests; creating a name twice needs a client that has not seen the first", "anchors": ["src/git/protocol/pack.rs:git_receive_pack", "src/gust/driver/database/mysql/storage.rs:save_refs", "src/gust/driver/database/mysql/storage.rs:get_head_object_id"]}
{"id": "C145", "title": "Looking at a directory at the same time", "statement": "Clients that ask for the references of a directory of a repository at the same time are answered as if they had come one after the other, and leave the directory with one reference for one commit, so that a later push moves it. (Violated: each of them inserts its own row; a later update moves only one of them and the name then stands for two commits.)", "quantifier": "all states, numbers of clients, orders of their database statements and failing statements, HTTP", "why_tests_cant": "the rows are inserted twice only when one client looks between another's SELECT and INSERT; all orders are to be considered", "anchors": ["src/gust/driver/database/mysql/storage.rs:get_head_object_id", "src/gust/driver/database/mysql/storage.rs:generate_child_commit_and_refs", "src/gust/driver/database/mysql/storage.rs:update_refs"]}
{"id": "C146", "title": "Index and pack files are read whole or not at all", "statement": "Reading an index or a pack by the name of its file gives what the whole file contains, or aborts: a file that is missing, that was written or could be read only in part, or an index with further bytes is never taken for a shorter or another one.", "quantifier": "all index and pack files, all points at which they break off, all receivers", "why_tests_cant": "a file can break off at every byte, and the index reader drops the error of reading; that no prefix of any file is accepted is a fact about all files", "anchors": ["src/git/idx/mod.rs:decode_from_path", "src/git/idx/mod.rs:decode", "src/git/pack/mod.rs:decode_file"]}
{"id": "C147", "title": "What follows a pack has no effect", "statement": "A pack says itself where it ends: bytes after its end, a second pack included, change neither what the decoder makes of it nor what a push stores and answers.", "quantifier": "all files the decoder accepts, all bytes that may follow, all server states, all deltas and objects in the pack; pushes over HTTP and SSH", "why_tests_cant": "it compares two runs for every accepted pack and every possible rest; the position of the end depends on every entry of the pack, and nested delta bases are read at other places of the file", "anchors": ["src/git/pack/mod.rs:decode", "src/git/pack/mod.rs:next_object", "src/git/utils.rs:read_zlib_stream_exact", "src/git/protocol/pack.rs:git_receive_pack"]}
{"id": "C148", "title": "Which objects become deltas, and against which", "statement": "A pack written with deltas has one entry for each object in order; an object becomes a delta exactly if one of the nine objects before it, in an unbroken run of its type, shares more than half of its content, and then against the one that shares most, the nearest of several; it never is its own base.", "quantifier": "all lists of objects of any length, all contents below 16 MiB, every diff engine that gives edit scripts, every inflater pair, both builds", "why_tests_cant": "the choice depends on the contents of ten objects at every place of the list and on the script the diff engine finds; only a proof shows that none is missed at the edge of the window, after a change of type or in a tie", "anchors": ["src/git/pack/encode.rs:encode_delta", "src/git/object/diff.rs:get_ssam_rate"]}
{"id": "C149", "title": "How a pack is written does not matter", "statement": "Two pushes of the same objects for the same reference are answered the same and leave the same rows, whatever the order of the entries of their packs, which of them are deltas and against what, how they are compressed and how often an object is repeated.", "quantifier": "all pairs of well-formed packs below 4 GiB with the same objects, thin ones included, all states of the database, all outages, HTTP and SSH, every inflater, both builds", "why_tests_cant": "the ways to write one set of objects as a pack are unbounded: orders, delta chains, offset and id deltas, external bases, compression levels; a test fixes two", "anchors": ["src/git/pack/mod.rs:decode", "src/git/pack/cache.rs:update", "src/git/protocol/pack.rs:git_receive_pack", "src/gust/driver/database/mysql/storage.rs:save_packfile"]}
{"id": "C150", "title": "git and git-lfs served side by side", "statement": "git requests and git-lfs requests served by one process at the same time, in any order of their statements and file operations, do not affect each other: each side answers and stores what it would without the other, though both write to one disk.", "quantifier": "all git requests (HTTP and SSH), all git-lfs requests, all schedules, all states of tables and disk, all outages, every content directory not named like a temporary file, both builds", "why_tests_cant": "the interleavings of two kinds of requests over one disk are unbounded, and that two kinds of paths never meet holds for every id, time and directory, not for the few a test tries", "anchors": ["src/gateway/api/lib.rs:http_server", "src/git/protocol/pack.rs:git_receive_pack", "src/gust/driver/lfs_content_store/mod.rs:put"]}
{"id": "C151", "title": "Fetches of what is new, while others push", "statement": "A client that fetches while others push, and names what it has, gets the trees and blobs of the commits it wants as they were at one moment of its fetch: no half-written push shows, and nothing of the wanted commits is left out because of a push.", "quantifier": "all sets of requests served at once, all schedules, all wants, haves and states of the database, all outages, every fetch over HTTP with multi_ack_detailed and a side band that is answered", "why_tests_cant": "the interleavings of the statements of a fetch with those of other requests are unbounded; a test drives one of them by luck", "anchors": ["src/git/protocol/pack.rs:git_upload_pack", "src/gust/driver/database/mysql/storage.rs:get_incremental_pack_data", "src/gust/driver/database/mysql/storage.rs:get_child_trees"]}
{"id": "C152", "title": "Clones and fetches over SSH, while others push", "statement": "A client that clones or fetches over SSH while others push gets, after the greeting, the history (or, naming what it has, the trees and blobs of the commits it wants) as the repository was at one moment of its session, when it was complete; that the greeting itself may record commits does not disturb this.", "quantifier": "all sets of requests and sessions served at once, all schedules, all states of the database, all outages, every answered session whose repository name has no space and whose request comes in one packet", "why_tests_cant": "the interleavings of the statements of a session with those of other requests are unbounded", "anchors": ["src/git/protocol/ssh.rs:exec_request", "src/git/protocol/ssh.rs:data", "src/git/protocol/pack.rs:git_upload_pack", "src/gust/driver/database/mysql/storage.rs:get_full_pack_data", "src/gust/driver/database/mysql/storage.rs:get_incremental_pack_data"]}
{"id": "C153", "title": "The references shown while others push", "statement": "A client that asks for the references of a repository while others push is shown HEAD and the references as they were at one moment of its request. (Violated: HEAD and the references are read by two statements, and a push may come between them; each is as of one moment.)", "quantifier": "all sets of requests and sessions served at once, all schedules, all states of the database, all outages, every answered discovery over HTTP or greeting over SSH of a repository with none above it", "why_tests_cant": "the interleavings of the two statements with those of other requests are unbounded; a test of one request at a time never sees the two moments differ", "anchors": ["src/git/protocol/pack.rs:git_info_refs", "src/gust/driver/database/mysql/storage.rs:get_head_object_id", "src/gust/driver/database/mysql/storage.rs:get_ref_object_id"]}
