{"claims": [
{"property": "C01", "status": "proved", "theorems": ["C01_size_roundtrip", "C01_size_format", "C01_size_decoding"], "note": "Round-trip for all n < 2^64, any suffix, both build modes; output conforms to git's size encoding; decoder proved for every encoding of that format up to ten bytes."},
{"property": "C02", "status": "proved", "theorems": ["C02_header_roundtrip", "C02_header_format", "C02_header_decoding", "C02_type_numbers", "C02_large_sizes"], "note": "Round-trip and format conformance below 2^61; from 2^61 on the size is never recovered."},
{"property": "C03", "status": "partial", "theorems": ["C03_offset_roundtrip_iff", "C03_offset_format", "C03_offset_small", "C03_offset_debug_panics", "C03_offset_release_wrong", "C03_offset_roundtrip_refuted"], "note": "The round-trip claim for every distance is false of the code (refuted). Proved exactly which distances survive: those without a zero base-128 digit above the lowest (all below 16384); otherwise debug panics and release decodes a different number."},
{"property": "C04", "status": "proved", "theorems": ["C04_offset_decoding", "C04_offset_total"], "note": "Decoder agrees with git's documented offset encoding for all n < 2^64; every number has such an encoding."},
{"property": "C05", "status": "proved", "theorems": ["C05_u32_roundtrip", "C05_u32_format", "C05_u32_decoding", "C05_u32_short"], "note": "Round-trip, big-endian format, short input is an I/O error."},
{"property": "C06", "status": "proved", "theorems": ["C06_hex_parse", "C06_hex_reject", "C06_hex_print", "C06_hex_lowercase", "C06_hex_length"], "note": "Accepts exactly 40 hex digits of either case, prints lower case, rejects everything else with an error."},
{"property": "C07", "status": "proved", "theorems": ["C07_object_id", "C07_delta_types_have_no_id", "C07_preimage_injective", "C07_preimage_determined", "C07_id_length"], "note": "Id is the (concrete) SHA-1 of git's framing; framing is injective and unique; delta types panic."},
{"property": "C08", "status": "proved", "theorems": ["C08_loose_path_parts", "C08_loose_path_injective"], "note": "Path parts are 2 + 38 hex digits of the id; injective."},
{"property": "C09", "status": "proved", "theorems": ["C09_loose_roundtrip", "C09_loose_format", "C09_new_objects_wf"], "note": "Round-trip for any zlib satisfying codec_ok; only the one file changes; file is in git's loose format. Directories are implicit in the file-system model."},
{"property": "C10", "status": "partial", "theorems": ["C10_declared_length_ignored", "C10_declared_length_refuted"], "note": "False of the code: refuted, and proved that every declared length below 2^64 is accepted."},
{"property": "C11", "status": "proved", "theorems": ["C11_apply_iff", "C11_apply_complete", "C11_format_deterministic", "C11_apply_overflow_refuted"], "note": "Exact equivalence with an independent relational spec of git's delta format, for every delta with 64-bit length fields; the format is shown deterministic. The corner beyond 64 bits is refuted with a witness."},
{"property": "C12", "status": "proved", "theorems": ["C12_outcomes", "C12_declared_length", "C12_wrong_base", "C12_wrong_length", "C12_reserved_opcode", "C12_copy_outside", "C12_cut_aborts"], "note": "All outcomes classified; declared length, foreign bytes, reserved opcode, out-of-range copy, wrong base and wrong length give errors; a delta cut inside an instruction aborts (proved for every cut)."},
{"property": "C13", "status": "proved", "theorems": ["C13_delta_reproduces"], "note": "For every valid edit script (the Myers crate is an oracle assumed to report an in-order script over both strings)."},
{"property": "C14", "status": "partial", "theorems": ["C14_big_copy_rejected", "C14_no_big_copy", "C14_big_copy_refuted", "C14_far_copy_refuted"], "note": "False of the code (refuted, two witnesses: a 16 MiB common run yields a delta that does not apply; a copy beyond 4 GiB silently yields other content). Proved exactly when the delta works: no copy of 2^24 bytes or more, base at most 4 GiB; otherwise rejected with an error."},
{"property": "C15", "status": "proved", "theorems": ["C15_header_format", "C15_header_roundtrip", "C15_header_decoding", "C15_other_header_rejected", "C15_empty_aborts", "C15_truncated_rejected"], "note": "Header bytes match git's format, are read back for every 0 < n < 2^32; every other magic or version is an Err of the whole decoder; shorter input is never accepted; zero objects panic."},
{"property": "C16", "status": "proved", "theorems": ["C16_encode_format", "C16_pack_roundtrip"], "note": "For every non-empty list of well-formed whole objects (entry sizes < 2^61, file < 4 GiB), any round-tripping zlib, both builds. Hypothesis: no two different objects of the list share a SHA-1."},
{"property": "C17", "status": "partial", "theorems": ["C17_encode_trailer", "C17_encode_delta_trailer", "C17_any_trailer_accepted", "C17_wrong_checksum_refuted"], "note": "The encoder half is proved for both encoders. The decoder half is false: any 20 bytes are accepted as trailer (proved for every well-formed body, and refuted with a witness)."},
{"property": "C18", "status": "proved", "theorems": ["C18_delta_format", "C18_delta_pack_roundtrip", "C18_release_same"], "note": "Through conformance of the written pack to git's format; any diff engine reporting valid edit scripts; objects < 16 MiB, pack < 4 GiB; window choice and chain depth arbitrary. f64 rounding of the similarity rate is not modelled (exact comparison), and only influences which base is picked."},
{"property": "C19", "status": "partial", "theorems": ["C19_small_packs", "C19_debug_aborts_refuted", "C19_release_corrupts_refuted"], "note": "False of the code: witness list where the debug build panics and the release build writes a pack that no build decodes. Proved: the release build always writes something and below 16 KiB both builds agree and the pack is right (with C18)."},
{"property": "C20", "status": "partial", "theorems": ["C20_terminates", "C20_self_reference_diverges", "C20_diverges_refuted"], "note": "False of the code: every well-formed beginning followed by an offset delta with distance 0 diverges for every recursion depth. Proved: for every byte string without a self-referencing entry decoding ends within recursion depth length+1."},
{"property": "C21", "status": "proved", "theorems": ["C21_decode_addressed", "C21_step_addressed"], "note": "For every byte string, storage, codec, build; invariant of every single step and of the whole decode."},
{"property": "C22", "status": "partial", "theorems": ["C22_undefined_type_aborts", "C22_error_reported_refuted"], "note": "False of the code: after any well-formed beginning an entry of type 0 or 5 panics instead of returning an error."},
{"property": "C23", "status": "proved", "theorems": ["C23_merge", "C23_pack_loose", "C23_no_loose_aborts"], "note": "Any well-formed pack (deltas included) and any non-empty loose directory; result conforms to git's format and decodes to the union. The file system is a finite map; directory order is the order of the map."},
{"property": "C24", "status": "partial", "theorems": ["C24_objects_complete", "C24_errors_abort", "C24_foreign_file_aborts", "C24_count_is_zero", "C24_count_refuted"], "note": "Objects complete: proved for every list of self-contained packs. The reported count is false: proved to be 0 for every input, with a refutation witness. No error values come out: a file that is no pack, in whatever place, aborts the whole (C24_errors_abort, C24_foreign_file_aborts)."},
{"property": "C25", "status": "partial", "theorems": ["C25_objects_dropped", "C25_objects_returned_refuted"], "note": "False of the code: proved for every input that the returned pack has the count and signature of the index but no objects; refuted with a pack of one blob and its own index."},
{"property": "C26", "status": "proved", "theorems": ["C26_index_format", "C26_index_of_any_pack", "C26_index_decoding", "C26_decoding_again", "C26_index_roundtrip"], "note": "For every well-formed pack below 4 GiB without SHA-1 collision: the generated file is a version-2 index (independent format spec), describes exactly the objects, parses back, lookups succeed for every object and abort for unknown ids. Also for any file the decoder accepts. A second index read into the same value adds its items behind the old ones (C26_decoding_again)."},
{"property": "C27", "status": "partial", "theorems": ["C27_decoded_offsets_small", "C27_offsets_truncated", "C27_large_offset_refuted"], "note": "Refuted for packs assembled in memory (offsets kept modulo 2^32, characterised exactly). Packs obtained by decoding never have such offsets: the decoder aborts first."},
{"property": "C28", "status": "proved", "theorems": ["C28_tree_roundtrip", "C28_tree_format", "C28_files"], "note": "Round-trip for all lists of legal entries; the content conforms to an independent description of git's tree format. C28_files: a tree made of blobs has plain-file entries with the ids of the blobs."},
{"property": "C29", "status": "proved", "theorems": ["C29_tree_decoding", "C29_tree_fidelity", "C29_otherwise_abort", "C29_unique"], "note": "Decoding succeeds exactly on the contents of git's tree format (with the code's mode set and UTF-8 names); re-encoding gives the same bytes and, for well-formed objects, the same id; everything else aborts; the reading is unique."},
{"property": "C30", "status": "proved", "theorems": ["C30_sign_roundtrip", "C30_sign_format", "C30_sign_parse", "C30_parsed_fields_clean"], "note": "Round-trip if and only if the fields are clean (exact domain); format conformance; every parsed line has clean fields."},
{"property": "C31", "status": "proved", "theorems": ["C31_commit_roundtrip", "C31_commit_format"], "note": "All commits with at most one parent and typed fields, any UTF-8 message; content is in git's commit format."},
{"property": "C32", "status": "partial", "theorems": ["C32_parents_decoded", "C32_merge_refuted"], "note": "False of the code: proved that with parents p :: ps the decoder returns p repeated; refuted with a two-parent commit."},
{"property": "C33", "status": "proved", "theorems": ["C33_commit_fidelity", "C33_merge_not_preserved", "C33_merge_refuted"], "note": "Byte and id preservation for every content in git's layout with at most one parent; for merges exactly when all parents are equal (refuted otherwise)."},
{"property": "C34", "status": "proved", "theorems": ["C34_tag_format", "C34_tag_decoding", "C34_tag_roundtrip", "C34_no_newline_aborts", "C34_tag_fidelity", "C34_unknown_type_aborts"], "note": "Format, decoding with the exact lost part, round-trip when the message starts with a newline, abort without newline, abort for a type that is none of the four kinds, fidelity."},
{"property": "C35", "status": "proved", "theorems": ["C35_partition", "C35_no_deadlock", "C35_terminates", "C35_crash_iff_unparsable", "C35_result_iff", "C35_sequential"], "note": "Any distribution of objects over any number of workers and any interleaving (transition system with per-vector write locks): partition by type, no deadlock, at most two steps per object, abort exactly if some object does not parse."},
{"property": "C36", "status": "partial", "theorems": ["C36_check_iff", "C36_sorted", "C36_names", "C36_named", "C36_check_after_decoding", "C36_listing_aborts", "C36_write_aborts", "C36_complete_pack_refuted"], "note": "The check is exact with respect to the lookup table, and sorts and names correctly when it succeeds (C36_named: each listed blob and tree has the name of the last entry that lists it). False of the code that fills it: after decoding it succeeds only if all trees are empty (refuted with a complete pack), listing aborts unless there are no objects, and Pack::write always aborts."},
{"property": "C37", "status": "proved", "theorems": ["C37_pkt_format", "C37_pkt_roundtrip", "C37_reads_every_line", "C37_too_long"], "note": "Writer conforms to the pkt-line format; round-trip for all payloads up to 65531 bytes and all following bytes; every pkt-line of either case is read; longer payloads are never read back."},
{"property": "C38", "status": "proved", "theorems": ["C38_reader_iff", "C38_reader_total", "C38_reader_slices"], "note": "Exact characterisation (if and only if) of what the reader returns; all other inputs abort. The reader also accepts a plus sign in the length field."},
{"property": "C39", "status": "proved", "theorems": ["C39_side_band_delivers", "C39_side_band_unambiguous", "C39_chunk_sizes"], "note": "All packs and chunkings up to 65515 bytes per chunk; the extracted data is unique."},
{"property": "C40", "status": "partial", "theorems": ["C40_flush_appended", "C40_exact_refuted"], "note": "False of the code: proved for all packs and chunkings that the bytes sent are the pack followed by 0000; refuted."},
{"property": "C41", "status": "proved", "theorems": ["C41_repository", "C41_no_head", "C41_below"], "note": "For every path, service, transport and database whose references fit the columns: repository with a head, path without one, and path below a repository (where the child reference is created first). advert is an independent description of the pkt-line stream; listing says what part of the reference rows is shown (see C42)."},
{"property": "C42", "status": "partial", "theorems": ["C42_distinct_ids", "C42_one_per_commit", "C42_missing_refuted"], "note": "False of the code: refuted by two references on one commit. Proved: exactly one name per distinct id is advertised, so with pairwise distinct ids every reference is."},
{"property": "C43", "status": "proved", "theorems": ["C43_fetch_request"], "note": "All requests built from wants, haves, flushes and other lines, followed by done: sets of ids and capabilities exactly, rest of the input untouched."},
{"property": "C44", "status": "partial", "theorems": ["C44_no_done_diverges", "C44_diverges_only_without_done", "C44_terminates_refuted"], "note": "False of the code: every well-formed body without done diverges for every fuel; conversely divergence implies that the body is a sequence of lines without done; refuted."},
{"property": "C45", "status": "partial", "theorems": ["C45_known", "C45_http_fetch", "C45_ssh_fetch", "C45_other_repository_refuted", "C45_ack_lines", "C45_no_haves", "C45_foreign_id_refuted"], "note": "False of the code, in two ways: every reply to a request with haves acknowledges a hard-coded id (C45_foreign_id_refuted), and 'common' is said of a commit that only another repository has (C45_other_repository_refuted). Proved for whole requests over HTTP and SSH (C45_http_fetch, C45_ssh_fetch): with multi_ack_detailed the lines are exactly one 'common' for each have and each want that is the id of a stored commit of any repository, one 'ready' for each want if the client sent no-done, and the hard-coded line; then the pack of C54. For ids as git writes them 'stored' means a commit of exactly that id (C45_known)."},
{"property": "C46", "status": "proved", "theorems": ["C46_create", "C46_update"], "note": "Whole HTTP request: command line, flush, pack in git's format (deltas included) whose history fits the schema, any database. The stored name ends with the NUL of the command line (so does the name in the report). For updates the named reference must be the only one of the repository with the old id (C55)."},
{"property": "C47", "status": "partial", "theorems": ["C47_nothing_done", "C47_request_echoed", "C47_two_references_refuted"], "note": "False of the code: refuted. Proved for all requests with a second command: the database is unchanged whatever the rest; if the second command is a create the reply is the cut request itself."},
{"property": "C48", "status": "partial", "theorems": ["C48_nothing_deleted", "C48_delete_with_pack", "C48_delete_refuted"], "note": "False of the code: refuted. Proved for all delete-only requests over HTTP: nothing changes and the reply is empty; with a pack the pack is stored and the request aborts."},
{"property": "C49", "status": "partial", "theorems": ["C49_plain_command", "C49_first_command", "C49_name_refuted"], "note": "False of the code for the first command: proved that the name then contains NUL and the text up to white space; exact for commands without capability list; refuted."},
{"property": "C50", "status": "proved", "theorems": ["C50_classification", "C50_report"], "note": "All id pairs; report line for every history of status changes."},
{"property": "C51", "status": "proved", "theorems": ["C51_push_then_clone", "C51_first_push_then_clone"], "note": "For every storage environment (row order, hash order, collation, pattern matching) satisfying env_ok, any zlib, any pack in git's format (deltas included) with a history that fits the schema: decode, save and clone succeed; the clone is a valid pack with every object once and exactly the objects reached. Also for pushes to a repository that already has a complete history. A history means: sound, closed, no SHA-1 collisions among the objects at hand, acyclic trees, values within the column limits."},
{"property": "C52", "status": "partial", "theorems": ["C52_no_tag_returned", "C52_tag_lost_refuted"], "note": "False of the code: refuted by a push with an annotated tag; moreover no clone of any repository returns a tag."},
{"property": "C53", "status": "partial", "theorems": ["C53_missing_object_aborts", "C53_incremental_push_refuted"], "note": "False of the code: refuted by a second push that adds one file; in general a pack with a tree entry (reached from its commits) that the pack does not contain aborts the push with nothing stored."},
{"property": "C54", "status": "partial", "theorems": ["C54_other_modes", "C54_incremental_pack", "C54_wanted_commit_refuted"], "note": "False of the code: refuted (C54_wanted_commit_refuted). Exact content proved: the trees and blobs of the wanted commits and no commit, whatever the haves; aborts when no wanted commit is stored (C54_incremental_pack; for whole requests see C45_http_fetch, C45_ssh_fetch). Clients that do not speak multi_ack_detailed get no pack at all when they name a have (C54_other_modes)."},
{"property": "C55", "status": "partial", "theorems": ["C55_one_reference", "C55_only_candidate", "C55_other_moved_refuted"], "note": "False of the code when two references share the old id: refuted. Proved: the update changes the id of exactly one reference with the old id in that repository or aborts; if the named one is the only candidate it is the one moved."},
{"property": "C56", "status": "proved", "theorems": ["C56_all_rows_in_order", "C56_saved", "C56_limit_refuted", "C56_large_first_row"], "note": "Batches concatenate to the input and have at most 50 rows; saving inserts all rows in order with only prefixes visible in between; the 10 MiB limit refuted; a first row of 10 MiB or more gives an empty first INSERT, and the save aborts if the server rejects that."},
{"property": "C57", "status": "proved", "theorems": ["C57_child_commit"], "note": "For all databases with sound rows; the node is the one found by the last path component (C58). The commit row is stored unless longer than the column (65535 bytes); the reference is stored in any case."},
{"property": "C58", "status": "partial", "theorems": ["C58_never_refreshed", "C58_other_tree_refuted", "C58_file_as_tree_refuted"], "note": "False of the code: refuted by a repository with a directory of the same name as another's (wrong tree) and by a file of that name (a blob as tree). Proved: no push to the repository changes the head served for a subdirectory once it has been asked for."},
{"property": "C59", "status": "proved", "theorems": ["C59_crash", "C59_unknown_commit_refuted"], "note": "For every single-command push whose new id is a stored commit or a commit of the pack, the state after each statement of the whole request keeps every reference on a stored commit with stored root tree. Without the premise on the new id refuted: the server does not check it (C59_unknown_commit_refuted)."},
{"property": "C60", "status": "partial", "theorems": ["C60_errors_ignored", "C60_reported_ok_refuted"], "note": "False of the code: refuted by a push whose commit INSERT fails: reported ok, reference created, no commit. Proved: storing commits and references succeeds whatever the database answers."},
{"property": "C61", "status": "proved", "theorems": ["C61_exclusive", "C61_conflict", "C61_granted", "C61_empty_path"], "note": "For every history of all LFS requests from a server without locks, with any statements failing on the way (C61_exclusive), and for every state so reached (the others). Lock numbers are eight digits as drawn by the server; paths and times are UTF-8, as every string of a parsed body is. JSON is a parameter whose premises C98 proves of the modelled serde_json. Whether sea-orm reports the INSERT of the first lock of a ref as a success is a parameter (key_insert_ok); the lock is stored in both cases."},
{"property": "C62", "status": "partial", "theorems": ["C62_steps", "C62_different_refs", "C62_refuted", "C62_lost_refuted"], "note": "False of the code for requests on one ref: refuted twice (both granted; one lost). Proved for all schedules of any number of requests on pairwise different refs: each has the outcome it has alone."},
{"property": "C63", "status": "partial", "theorems": ["C63_listing", "C63_default", "C63_negative", "C63_refuted"], "note": "False of the code: refuted. C63_listing says for every list and every page size exactly what is listed: all, except the last lock when it would be alone on its page."},
{"property": "C64", "status": "partial", "theorems": ["C64_no_path", "C64_path", "C64_refuted"], "note": "False of the code: refuted. Proved: without a path the whole list is returned whatever cursor and limit; with a path that is not a lock number the request fails."},
{"property": "C65", "status": "proved", "theorems": ["C65_removed", "C65_unknown", "C65_same_number_refuted"], "note": "For all reachable states and lists with distinct numbers. That numbers are distinct is not ensured by the server, which draws them at random: C65_same_number_refuted."},
{"property": "C66", "status": "partial", "theorems": ["C66_downloads", "C66_refuted", "C66_short_write_refuted", "C66_accepted"], "note": "False of the code after a rejected upload and after a short write: refuted. Proved for all histories, with any statements failing, in which every upload carries its content or was accepted and writes are whole; and an accepted upload is what the next download returns."},
{"property": "C67", "status": "proved", "theorems": ["C67_below", "C67_file", "C67_distinct", "C67_no_nesting", "C67_short_refuted"], "note": "C67_file says for any id which file it names, in terms of the file system (slashes, dots, '..'). The rest is for all ids of lower-case letters and digits (those the routes take), every content directory. C67_no_nesting: from length 5 on no content stands where another needs a directory; short ids do (C67_short_refuted)."},
{"property": "C68", "status": "partial", "theorems": ["C68_entries", "C68_links", "C68_large", "C68_refuted", "C68_links_refuted", "C68_key_insert"], "note": "As stated false: an object of 2^31 bytes or more ends the request (C68_large, C68_refuted), and links with user or repository are not URLs of the server. Proved for all batches of pairwise distinct objects that the table can hold, all states and both operations; links without user and repository lead back to the object. C68_key_insert says what happens if sea-orm rejects text keys."},
{"property": "C69", "status": "partial", "theorems": ["C69_path", "C69_distinct", "C69_refuted", "C69_suffix_refuted"], "note": "False of the code: refuted twice. Proved for all paths in which '.git' and the suffix occur at the end only."},
{"property": "C70", "status": "partial", "theorems": ["C70_repositories", "C70_short_form", "C70_refuted", "C70_short_form_refuted"], "note": "False of the code: refuted by a branch shown over HTTP and not over SSH. Proved: for every name the SSH key is the HTTP key without its slash, and the scp-like form of the address loses the first letter of the name as well."},
{"property": "C71", "status": "proved", "theorems": ["C71_get", "C71_put", "C71_post", "C71_other"], "note": "Exact (iff) for every path and method: who answers, with which segment, or which refusal. A GET of /info/refs without a service aborts."},
{"property": "C72", "status": "partial", "theorems": ["C72_different_seconds", "C72_same_second_refuted", "C72_same_second_panic_refuted", "C72_leftover"], "note": "False of the code in the same second: refuted (a push reads the other's pack; a push aborts). Proved: any number of pushes in pairwise different seconds, in any interleaving of their file operations, read back their own bodies; a file left behind is not truncated."},
{"property": "C73", "status": "proved", "theorems": ["C73_wellformed_pack_decodes"], "note": "Main decoder theorem; hypothesis: no two different objects of the pack share a SHA-1."},
{"property": "C74", "status": "partial", "theorems": ["C74_missing_base_aborts", "C74_forward_reference_refuted"], "note": "False of the code: proved that decoding aborts after every well-formed beginning when the base is neither earlier in the pack nor in the storage; witness pack of two entries."},
{"property": "C75", "status": "partial", "theorems": ["C75_wrong_magic_rejected", "C75_version_and_checksum_ignored", "C75_tampering_accepted_refuted"], "note": "A wrong magic is refused; refuted for version and checksum: any values are accepted and give the same items."},
{"property": "C76", "status": "partial", "theorems": ["C76_crc_of_encoded_entries", "C76_crc_of_delta_refuted"], "note": "Proved for packs written by encode with the same compressor; refuted for a pack containing a delta entry."},
{"property": "C77", "status": "partial", "theorems": ["C77_tree_names", "C77_tree_total", "C77_commit_message", "C77_latin1_message_refuted", "C77_latin1_filename_refuted", "C77_tag_without_tagger_refuted"], "note": "Exact characterisation for trees (names must be UTF-8) and commit messages; refuted for a Latin-1 message, a Latin-1 file name and a tag without tagger."},
{"property": "C78", "status": "partial", "theorems": ["C78_small_chunks", "C78_big_chunk", "C78_limit_refuted"], "note": "False of the code: every chunk above 995 bytes gives a stream no client of the small side-band can read; smaller chunks are fine; refuted with a 2000-byte pack."},
{"property": "C79", "status": "partial", "theorems": ["C79_inside", "C79_refuted"], "note": "False of the code for arbitrary ids: refuted. Proved for ids of lower-case letters and digits: the reply and the table do not depend on files outside the content directory, whatever statements fail."},
{"property": "C80", "status": "proved", "theorems": ["C80_http", "C80_request", "C80_ssh"], "note": "For every state, body, codec and fuel, over HTTP (handler and request) and for every SSH session once its command is git-upload-pack. C80_request also covers LFS and refused requests. Advertisement is excluded: it may store a commit (C57)."},
{"property": "C81", "status": "proved", "theorems": ["C81_append_only"], "note": "For every sequence of requests of any kind and every state with unique reference keys (C86: those reached from the empty database), and for every intermediate state of the database."},
{"property": "C82", "status": "proved", "theorems": ["C82_one_repository", "C82_at_most_one", "C82_no_repository", "C82_isolation"], "note": "For every sequence of requests that are not about the repository, names compared by the collation of the database, which is only assumed to be an equivalence. Two names that the collation identifies are one repository (C70, C82 speak of the collation). Trees and blobs are shared by all repositories by design of the server."},
{"property": "C83", "status": "proved", "theorems": ["C83_clone_unaffected"], "note": "For every sequence of requests about other repositories with any failing statements before, provided no two stored objects collide under SHA-1 and the repository itself is complete."},
{"property": "C84", "status": "partial", "theorems": ["C84_aborted_push", "C84_aborted_packet", "C84_working", "C84_references_last", "C84_refuted"], "note": "Refuted in one case: after the UPDATE of a reference its row is read again (sea-orm, MySQL has no RETURNING); when this last statement fails the request aborts and the reference has moved (C84_refuted). Exact otherwise: a push without an answer leaves the references as they were or the last statement it sent failed (C84_aborted_push over HTTP, C84_aborted_packet for each packet of a session); while the database works there is no exception (C84_working); references change in the last write of a push, if at all (C84_references_last)."},
{"property": "C85", "status": "proved", "theorems": ["C85_push_then_clone"], "note": "For every first push of a self-contained history with one commit at least, through the gateway, followed by any requests about other repositories and a clone through the gateway: the reply is NAK and a side-band stream of a pack with exactly the pushed reachable objects, each once. Premises: no statement fails, no SHA-1 collision among the stored objects; how the pack is cut into pieces of at most 65515 bytes is arbitrary. Annotated tags are not returned (C52)."},
{"property": "C86", "status": "proved", "theorems": ["C86_tables", "C86_from_empty"], "note": "For every sequence of requests of any kind, with any failing statements, and every intermediate state of the database."},
{"property": "C87", "status": "proved", "theorems": ["C87_commits_whole", "C87_always_complete"], "note": "For every set of requests of any kind, every interleaving of their statements and every failing statement. Excepted are the commits the server makes up for an advertisement of a path below a repository (C57); they are named by `derived`. C87_always_complete: repositories without such a path, without submodules and without SHA-1 collisions are complete at every moment."},
{"property": "C88", "status": "proved", "theorems": ["C88_clone_snapshot"], "note": "For every interleaving with any other requests, also when statements fail for others. Premises on the final state only: no SHA-1 collision, no submodules, no repository above this one, honest rows. Decoding a pack is one step of the model."},
{"property": "C89", "status": "proved", "theorems": ["C89_programs", "C89_alone", "C89_sequence", "C89_append_only", "C89_one_repository", "C89_isolation", "C89_tables"], "note": "For every set of requests of any kind, every interleaving and every failing statement. C89_programs, C89_alone and C89_sequence tie the interleaved programs to the sequential handlers: a request served alone does exactly what the handler does, and serving one after the other is one of the interleavings."},
{"property": "C90", "status": "partial", "theorems": ["C90_old_id_seen", "C90_lost_update_refuted"], "note": "Refuted: of two updates from the same old id both can be answered with ok, and the later UPDATE overwrites the other reference value (SELECT and UPDATE are two statements). Proved: an update answered with ok found its old id in a reference of the repository at some moment while it was served; otherwise the reply is ng."},
{"property": "C91", "status": "partial", "theorems": ["C91_wrong_pack_refuted", "C91_aborted_late_refuted"], "note": "Refuted: the temporary file is named by the second of arrival; two good pushes to different repositories within one second can end with one answered ok although none of its objects is stored, and with the other aborted, even after its reference was made. C92 proves the statement of pushes that have their second to themselves."},
{"property": "C92", "status": "proved", "theorems": ["C92_create", "C92_create_exact", "C92_update_exact"], "note": "For every set of other requests of any kind and every interleaving. Premises: no statement fails, the pack is self-contained (full_push), no other request uses its second (own_second; C91 refutes it otherwise). C92_create: any other requests. C92_create_exact, C92_update_exact: the others are about other repositories; then the references of the repository are exactly those of the push served alone. Pushes over HTTP."},
{"property": "C93", "status": "proved", "theorems": ["C93_ends", "C93_all_end", "C93_push_answered"], "note": "For every set of requests, every world and every infinite order in which the request has a turn again and again. Holds of the model, where a statement of the database always returns; C93_push_answered adds C92."},
{"property": "C94", "status": "proved", "theorems": ["C94_lock", "C94_unlock", "C94_verify", "C94_batch", "C94_exact", "C94_json_only", "C94_one_meaning"], "note": "For every text of the JSON grammar (SpecJson.v, written independently of the reader): blanks, escapes, surrogate pairs, order of members, unknown members of any depth. C94_exact says for every JSON document exactly which are taken, C94_json_only that a body that is taken follows the grammar, C94_one_meaning that a text is never two values. Limits must fit 64 bits. serde_json and the derived readers are modelled from their documented behaviour, their source is not on the box."},
{"property": "C95", "status": "partial", "theorems": ["C95_ref_needed", "C95_transfers_needed", "C95_refuted"], "note": "Refuted: `ref` (lock, unlock, verify) and `transfers` (batch) are optional in the git-lfs API; a request without them ends in a panic and no reply. C95_ref_needed, C95_transfers_needed: this happens to every such request, in every state, and changes nothing."},
{"property": "C96", "status": "proved", "theorems": ["C96_replies", "C96_requests"], "note": "For every reachable state and every list, verify, lock, unlock and batch request that is answered with success. Premises: the configured url and the oids of stored rows are UTF-8 (Rust strings). C96_requests: requests read from any body meet the premise on requests."},
{"property": "C97", "status": "partial", "theorems": ["C97_never", "C97_refuted"], "note": "Refuted: every error is plain text. C97_never: no error reply of any LFS handler, whatever the request and state, is a JSON document."},
{"property": "C98", "status": "proved", "theorems": ["C98_round_trip", "C98_environment", "C98_other_writers"], "note": "For all lists of locks with UTF-8 texts. C98_environment gives the premise on JSON of C61-C65 for every collation; C98_other_writers: a column written by any other JSON writer is read as meant."},
{"property": "C99", "status": "proved", "theorems": ["C99_push"], "note": "For every push that creates a reference, every history it may bring and every state. Together with C46 (contents) this fixes the rows of a push up to order, chosen numbers and, among entries that share their content, which of them is named (C100)."},
{"property": "C100", "status": "partial", "theorems": ["C100_names", "C100_refuted"], "note": "Refuted: a file and its copy share one row, which has the name of the one met first. C100_names: of entries that share their content but not name and mode, one at most gets a row of its own, in every push; when entries that share content also share name and mode, every entry gets one."},
{"property": "C101", "status": "proved", "theorems": ["C101_new", "C101_repository"], "note": "C101_new and C101_repository cover the two states a client can find (nothing of that name; a master reference). C101_repository assumes that the stored references are text, as every push stores them, and that the rows of the repository named master agree."},
{"property": "C102", "status": "proved", "theorems": ["C102_create", "C102_update"], "note": "For the packets git sends over SSH when each of the two parts fits in a packet; C104 is about other packets. The premise on the greeting is what C101 proves."},
{"property": "C103", "status": "proved", "theorems": ["C103_push_then_clone"], "note": "For a first push of a master reference to a repository name under which there is nothing, any requests about other repositories, then a clone. collision_free is SHA-1 having no collision among the stored objects."},
{"property": "C104", "status": "partial", "theorems": ["C104_in_order", "C104_joined", "C104_head_cut", "C104_split", "C104_no_done", "C104_refuted"], "note": "Refuted: the same bytes in two packets are a push, in one packet they are sent back. Exactly what happens is proved: packets in order (C104_in_order); data after the command (C104_joined); command cut (C104_head_cut); pack in more than one packet (C104_split: the server task panics at the first piece, nothing is stored); a fetch without its done line in the first packet is never answered (C104_no_done)."},
{"property": "C105", "status": "proved", "theorems": ["C105_prefix", "C105_http", "C105_ssh"], "note": "For a push of one reference, cut at any byte, over HTTP and over SSH. Premises: an inflater that needs the end of its stream (streaming), no leftover temporary file of the same second, SHA-1 collision-free among the pushed objects."},
{"property": "C106", "status": "proved", "theorems": ["C106_outside", "C106_boundary", "C106_inside"], "note": "C106_outside and C106_boundary need nothing about LIKE: whatever rows the database returns, only repositories that contain the path at a directory boundary are used. C106_inside assumes that the database returns the containing repository's row (is_head) and that some root node is stored, as every push stores one."},
{"property": "C107", "status": "partial", "theorems": ["C107_single", "C107_nearest_refuted"], "note": "Refuted: with /demo and /demo/sub both pushed, a path in /demo/sub is answered from /demo, whose row comes first. Proved when only one stored repository contains the path (C107_single)."},
{"property": "C108", "status": "partial", "theorems": ["C108_orders", "C108_equalities", "C108_agree_size", "C108_decoded_equal", "C108_agree_refuted", "C108_identity_refuted"], "note": "Proved: the four orders are total preorders, the four equalities are equivalences, and they agree for commits and tags. Refuted: for trees and blobs equal values do not compare as equal (after decoding, any two trees are == and any two blobs are ==); different commits of one size are ==."},
{"property": "C109", "status": "partial", "theorems": ["C109_blind", "C109_turns", "C109_taken_over", "C109_between", "C109_no_command", "C109_refuted"], "note": "Refuted: the connection has one current repository, so a push on channel 0 to demo ends up in another repository named by a later command on channel 1, and is answered ok (C109_refuted). Proved: sessions that take turns behave as on connections of their own (C109_turns); the server never looks at the channel number (C109_blind); what a later command on another channel does to the first (C109_taken_over, C109_between); data before any command ends the connection (C109_no_command)."},
{"property": "C110", "status": "partial", "theorems": ["C110_not_accepted", "C110_anyone", "C110_refuted"], "note": "Refuted: any password and any key whose signature verifies is accepted, and the push is stored (C110_refuted, C110_anyone). Proved: a client that offers neither has no effect (C110_not_accepted)."},
{"property": "C111", "status": "partial", "theorems": ["C111_stable", "C111_kept", "C111_starts", "C111_cut_short", "C111_cut_later", "C111_refuted"], "note": "Proved: once a start has written the key file, every later start has the same key and the file stays (C111_stable, C111_kept). Refuted: a first start cut short while writing the file leaves a file no later start can read, so none succeeds (C111_cut_short, C111_refuted). C111_starts: all starts from a directory without the file. C111_cut_later: a later start that is cut short is of no consequence."},
{"property": "C112", "status": "partial", "theorems": ["C112_ignored", "C112_ignored_ssh", "C112_no_info", "C112_waits", "C112_whole_history", "C112_refuted"], "note": "Refuted: a fetch of depth 1 gets the whole history and no shallow lines (C112_refuted). Characterised: lines that limit the fetch make no difference over HTTP or SSH (C112_ignored, C112_ignored_ssh), no reply begins with shallow lines (C112_no_info), without done nothing is ever answered over HTTP (C112_waits), after a first push every fetch without haves gets all of it (C112_whole_history)."},
{"property": "C113", "status": "proved", "theorems": ["C113_push", "C113_stale", "C113_references", "C113_clone", "C113_ssh_clone"], "note": "Refinement. run: states reached from an empty server by any requests about other repositories, reading requests, requests that change no table, and pushes the store allows (self-contained histories; new names of at most 31 characters, or updates of the only reference with the old id). In each of them: an allowed push is accepted and the store goes on (C113_push), the advertisement shows head and references of the store (C113_references), a clone gets exactly what the store's commits lead to, over HTTP (C113_clone) and SSH (C113_ssh_clone). Names carry a NUL at the end (C49), one reference is shown per id (C42). Clones assume that no two stored objects have one id. C113_stale: updates from an id that is gone."},
{"property": "C114", "status": "partial", "theorems": ["C114_returned", "C114_commit", "C114_other", "C114_length", "C114_colour", "C114_outcomes", "C114_decimal", "C114_refuted"], "note": "Refuted: a blob written by write_to_file is refused (C114_refuted). The match of read_unpacked_object binds variables, so each object is read as a commit: commits are returned (C114_commit), any other kind is refused unless its content also makes a commit of the same SHA-1 (C114_other). What is returned always hashes to the id asked for (C114_returned), a wrong declared length panics (C114_length), and with ids printed in colour nothing is ever found (C114_colour). C114_outcomes: nothing else happens. C114_decimal: the numeral reader is exact."},
{"property": "C115", "status": "partial", "theorems": ["C115_blob", "C115_tree", "C115_commit", "C115_aborts", "C115_kind_refuted"], "note": "Blobs, trees and commits with at most one parent (see C32) written to a file parse back to the same object (C115_blob, C115_tree, C115_commit). Refuted for the check of the kind: a tree is read as a blob and an empty blob as a tree (C115_kind_refuted). C115_aborts: reading gives the object or aborts, whatever the directory holds."},
{"property": "C116", "status": "partial", "theorems": ["C116_returned", "C116_lacking", "C116_common", "C116_refuted"], "note": "Refuted: a client that has the parent and lacks the commit makes the search panic (C116_refuted), and so does every commit the client lacks (C116_lacking), because the metadata of the commit has two owners when Arc::try_unwrap is called. What is returned is always empty, and then the client has the commit (C116_returned); for such a commit it is returned if the tree has only plain files and directories (C116_common). The function is private and unused."},
{"property": "C117", "status": "partial", "theorems": ["C117_names", "C117_names_panic", "C117_git_names", "C117_objects", "C117_order", "C117_no_times", "C117_short_name_refuted", "C117_times_refuted"], "note": "Refuted: one file with a name shorter than four bytes makes the whole directory unreadable (C117_short_name_refuted), and with a delta across packs the times of creation decide whether the directory can be read (C117_times_refuted). Exact: which names are accepted and which files are packs (C117_names, C117_names_panic, C117_git_names); all objects of packs that are complete in themselves are found (C117_objects); the order of the listing does not matter when no two packs were created at once (C117_order); without times of creation two packs panic (C117_no_times)."},
{"property": "C118", "status": "proved", "theorems": ["C118_discovery", "C118_service", "C118_lfs", "C118_refused", "C118_any"], "note": "C118_discovery, C118_service, C118_lfs, C118_any, C118_refused. Headers that hyper adds to every response are not part of the model."},
{"property": "C119", "status": "proved", "theorems": ["C119_values", "C119_any", "C119_any_twice", "C119_every", "C119_spelling", "C119_twice", "C119_text", "C119_ignored"], "note": "C119_values, C119_any, C119_any_twice, C119_every, C119_spelling, C119_twice, C119_text, C119_ignored. Queries as serde_urlencoded and form_urlencoded read them (from their documented behaviour, the crates are not on the box)."},
{"property": "C120", "status": "partial", "theorems": ["C120_lfs", "C120_git", "C120_kept", "C120_refuted"], "note": "Refuted: discovery of a directory below a repository stores a commit and a reference (C120_refuted). Exact: a GET changes nothing of git-lfs (C120_lfs) and nothing of the repositories unless it is a discovery strictly below a repository (C120_git); no request of any kind loses what was stored (C120_kept)."},
{"property": "C121", "status": "proved", "theorems": ["C121_repeated"], "note": "C121_repeated, for states in which the database does not fail."},
{"property": "C122", "status": "partial", "theorems": ["C122_list", "C122_lock", "C122_unlock", "C122_verify", "C122_not_json", "C122_download", "C122_discovery", "C122_unknown", "C122_refuted", "C122_upload", "C122_batch"], "note": "Refuted: an object id that is not known, and a lock without a reference, close the connection without a response (C122_refuted). Exact for listing, taking, removing and verifying locks, downloads, bodies that are not JSON, discovery outside repositories and unknown URLs (C122_list, C122_lock, C122_unlock, C122_verify, C122_download, C122_not_json, C122_discovery, C122_unknown), and, on servers reached from an empty one as in C131, for uploads (answered exactly when the object has a row: C122_upload) and batches (answered exactly when the body is taken and, for an upload, every object without a row has a size the table holds or the same id earlier in the batch: C122_batch). Not characterised: fetches, pushes and discovery strictly below a repository."},
{"property": "C123", "status": "partial", "theorems": ["C123_literal", "C123_refuted"], "note": "Refuted: two spellings of one URL name two repositories (C123_refuted). What is true instead: escapes are kept as they are written (C123_literal)."},
{"property": "C124", "status": "proved", "theorems": ["C124_book", "C124_held"], "note": "C124_book (refinement of the whole lock API to a book of locks, requests handled one after the other, no failing statements, INSERT of a row with a key of text reported as done), C124_held (a lock that was granted is refused to others and listed until its number is unlocked). The book's rules include the surprising ones of C61-C65 (paging, the empty path, paths read as cursors)."},
{"property": "C125", "status": "partial", "theorems": ["C125_stays", "C125_accepted", "C125_again", "C125_refuted"], "note": "The plain statement is refuted (C125_refuted: an upload that is refused removes the row of a content that was accepted, and its download then aborts). Proved: C125_stays (any interleaving of any requests, while nobody uploads that object: it stays stored and every download that is answered brings exactly it), C125_accepted (an upload answered 200 is stored), C125_again (requests one after the other may also upload the same content again, whatever statements fail)."},
{"property": "C126", "status": "partial", "theorems": ["C126_settles", "C126_downloads", "C126_refuted", "C126_programs"], "note": "The plain statement is refuted (C126_refuted: a download during a second upload of the same content is answered 200 with nothing in it). Proved for any interleaving of any requests whose uploads of the object all carry its content: C126_settles (an upload is accepted or aborts; when all uploads of the object have ended, and the file was there or one was accepted, the content is stored), C126_downloads (a download brings the content, nothing, or aborts). C126_programs: the interleaved programs, run alone, are the handlers of ModelLfs. Opening a file and reading it to its end is one action of the model."},
{"property": "C127", "status": "proved", "theorems": ["C127_locks", "C127_objects"], "note": "C127_locks (any requests about other refs, or about objects), C127_objects (any requests about other objects, or about locks; ids of five characters or more, as ids of contents are: shorter ones collide with directories, C67), C127_ex. No failing statements."},
{"property": "C128", "status": "partial", "theorems": ["C128_apart", "C128_known", "C128_refuted"], "note": "The plain statement is refuted (C128_refuted: two clients announce the same new object at once; one is not answered, though one after the other both are). Proved: C128_apart (a batch about objects that no other request is about is answered with an entry for each object, as alone), C128_known (objects with a row already: any interleaving, every batch is answered 200 with as many entries, while nobody uploads these objects)."},
{"property": "C129", "status": "partial", "theorems": ["C129_sent", "C129_create", "C129_update", "C129_seen", "C129_refuted"], "note": "C129_create and C129_update: a push sent again over HTTP or SSH changes nothing that a greeting or a clone shows (C129_seen says so of the answers), a creation is accepted again, an update ends the connection. C129_sent: a push that was accepted meets the hypothesis. Not all: C129_refuted: after a second creation there are two rows of one name, the next update moves only one of them, is reported as done, and the old id stays on show."},
{"property": "C130", "status": "proved", "theorems": ["C130_wire", "C130_held"], "note": "C130_wire: histories of HTTP requests of all kinds (git included), bodies and queries as bytes, responses as heads and JSON bodies. C130_held: a lock that was granted, until a request asks to free it. Assumptions: as C124; the draws are lock numbers and texts. Bodies that keep to the JSON grammar and have no value (strings that are no text) may be taken for any request of their kind."},
{"property": "C131", "status": "proved", "theorems": ["C131_shelf"], "note": "C131_shelf: histories of HTTP requests of all kinds (git included) from a server whose tables have no object and whose content directory is empty. Assumptions: database calls succeed (failures are C122 and C68), contents are written whole, the directory may be opened, batches name ids of 5 to 100 of the characters the router takes (SHA-256 ids do; shorter ids share directories, C67). What the shelf says of refused uploads is what the program does: the refused content has replaced the one before (C66_refuted)."},
{"property": "C132", "status": "proved", "theorems": ["C132_answered", "C132_transfer"], "note": "C132_transfer and C132_answered. Assumptions: as C131, and that every request that sends the id sends the content, and every upload batch that announces it announces its size (C66_refuted and C125 are what happens otherwise). A batch with a size that the table does not hold gets no answer (C68)."},
{"property": "C133", "status": "partial", "theorems": ["C133_fetch", "C133_greeting", "C133_push", "C133_locks", "C133_refuted"], "note": "Refuted as stated for a database whose text comparison ignores case, as MySQL's default collation does (C133_refuted: what is pushed to /Demo is served to a clone of /demo). Exact: under such a comparison a fetch of either name is answered byte for byte alike in every state (C133_fetch), the greeting of one name lists the references of the other (C133_greeting), an update pushed to one name moves the reference of the other (C133_push), a lock on a ref refuses the path to every other spelling of the ref and is listed for it (C133_locks). The comparison is a parameter of the model; the schema in /repo/Dump20230523.sql sets utf8mb4_0900_ai_ci on these columns, which ignores case."},
{"property": "C134", "status": "partial", "theorems": ["C134_honest", "C134_lock", "C134_unlock", "C134_refuted"], "note": "Refuted in the second half: the read-back after an UPDATE may fail, and then the request is answered 500 though the lock is stored (C134_refuted). Proved: no git-lfs request of any kind with a failed statement is answered as done (C134_honest). For taking and removing locks, exactly what happens at each statement that can fail, and that nothing changes except in the read-back case (C134_lock, C134_unlock). The effects left behind by a failing batch or upload are not characterised here (C68 and C122 treat them with a working database)."},
{"property": "C135", "status": "partial", "theorems": ["C135_bases", "C135_pack", "C135_decoded", "C135_create", "C135_update", "C135_other_base", "C135_refuted"], "note": "Refuted for commits: a commit sent as a delta against a commit of the same repository leaves the push unanswered with nothing stored (C135_refuted, for every build and all fuel); in general any base that is neither earlier in the pack nor a stored tree or blob does (C135_other_base). For trees and blobs the statement is proved: the bases found are exactly the stored trees and blobs under their ids, of every repository (C135_bases), so a thin pack whose bases the server has is a pack for the server (C135_pack), decodes to the objects meant (C135_decoded), and creates or updates a reference as whole objects do (C135_create, C135_update). Needs rows stored under the ids of their content (what pushes write, C80) and no SHA-1 collision among them; the lookups of one decoding are taken not to fail."},
{"property": "C136", "status": "proved", "theorems": ["C136_loose_name", "C136_merged_name", "C136_strays_left_out", "C136_short_name_aborts", "C136_again"], "note": "For all directories and packs: packs written from a directory are new files called pack-<checksum in lower hex>.pack and nothing else changes (C136_loose_name, C136_merged_name); loose files of an unknown kind are left out without an error (C136_strays_left_out); a name shorter than four bytes before the first pack aborts the merge (C136_short_name_aborts); a decoded pack packed again from its cache has the same objects, each once, and the cache is kept (C136_again, for packs without SHA-1 collisions)."},
{"property": "C137", "status": "partial", "theorems": ["C137_long_name", "C137_big_commit", "C137_big_node", "C137_created_refuted", "C137_commit_stored_refuted"], "note": "As stated it is false and refuted twice: a new reference with a name of more than 31 characters is acknowledged and does not exist (C137_created_refuted), a commit of more than 65535 bytes leaves an acknowledged reference to a commit that is not stored (C137_commit_stored_refuted). Proved for all pushes over HTTP that create a reference: a name over 31 characters or a repository path over 64 is answered ok with the objects stored and the references unchanged (C137_long_name); with large commits the reference is created, only commits of at most 65535 bytes are stored and, in a push of up to a hundred commits, none (C137_big_commit). The part that holds: a push with a tree or blob over 16777215 bytes, or an entry whose names are all over 128 characters, is never acknowledged and writes no reference and no commit (C137_big_node). Pushes that update a reference and sessions over SSH are not treated for large commits."},
{"property": "C138", "status": "partial", "theorems": ["C138_fetch", "C138_fetch_ssh", "C138_discovery", "C138_push", "C138_branch_outage", "C138_below_refuted", "C138_created_refuted"], "note": "As stated it is false and refuted twice: a push that creates a branch while the database is out is answered ok and creates nothing (C138_created_refuted, from C138_branch_outage, which holds for every such push with a pack of no objects whose first statement fails), and a discovery below a repository whose INSERT fails answers with a head that is not stored (C138_below_refuted). The parts that hold, for every pattern of failing statements: fetches over HTTP and SSH sessions that fetch are aborted or end as they do when nothing fails, reply and database alike (C138_fetch, C138_fetch_ssh); so do discoveries of a path that no head reference of another repository lies above (C138_discovery); a push that is not aborted has stored the trees and blobs of its commits (C138_push)."},
{"property": "C139", "status": "partial", "theorems": ["C139_sound", "C139_wrong_size", "C139_delta_size_refuted", "C139_inside_refuted"], "note": "The statement as written is false of two checks the pack format asks for: the declared size of a delta entry is ignored (C139_delta_size_refuted) and the base of an offset delta may lie inside another entry, whose object is then filed with the others (C139_inside_refuted). Proved for every file, build, decompressor giving bytes and storage whose objects know their length: a decoded pack has the header, the count, consecutive entries from byte 12, the signature after them, every entry's object in the cache under its id, and nothing in the cache that some place of the file does not describe (C139_sound); the one way out is two different objects of the file with the same SHA-1, stated as a disjunct. Whole entries of another size are refused (C139_wrong_size). Numbers of headers above ten bytes are not specified (only release builds accept them); sizes are kept modulo 2^61 and distances modulo 2^64."},
{"property": "C140", "status": "partial", "theorems": ["C140_answered", "C140_any", "C140_count", "C140_sequence", "C140_refused", "C140_completed", "C140_refuted", "C140_cut_refuted"], "note": "False of the code: a push that is not answered after its pack has been written leaves its temporary file (C140_refuted; C140_refused: every one-command push whose pack is refused does, with exactly its pack in it), and a push that is cut short in the same second is completed from that file and accepted (C140_completed for all such pushes, C140_cut_refuted). What holds, for every request over HTTP and SSH, every content and every pattern of failing statements: an answered request leaves every file as it was, but for temporary files of its own second that disappear (C140_answered); one that is not may leave one file, with bytes of a pack it sent, and touches nothing else (C140_any); after any sequence of requests there are at most as many files more as requests that were not answered (C140_count), and none if all were answered (C140_sequence). Requests one after the other; git-lfs files are the subject of C67 and C125-C128."},
{"property": "C141", "status": "partial", "theorems": ["C141_every", "C141_never", "C141_git", "C141_git_different", "C141_plain", "C141_neighbours", "C141_space", "C141_refuted"], "note": "False of the code for addresses without .git: the last five bytes of the quoted path are dropped whatever they are, so that ssh://host/demo-old and ssh://host/demo-new are one repository and what is pushed through one is served through the other (C141_refuted). Exact for every command: C141_every, C141_never (which repository, or no answer and no effect). With .git the repository is the name as git quotes it, and different names are different repositories (C141_git, C141_git_different: names without spaces). Without .git four letters of the name are lost, and names of fewer than four are never answered (C141_plain; C141_neighbours for whole sessions). Names with a space are cut there (C141_space). How the client quotes the path is taken from git (sq_quote_buf), in the statement."},
{"property": "C142", "status": "proved", "theorems": ["C142_pieces", "C142_broken", "C142_ignored"], "note": "For every HTTP request to git or git-lfs, every state and every pattern of failing statements: a body that arrives whole has the response and effect of its concatenation, however it is cut (C142_pieces); a body that breaks off, of a request that brings one, has no response and changes no table and no file (C142_broken); of every other request the body is of no consequence (C142_ignored). A broken connection is an error of the body stream, as hyper reports it; a handler that is dropped after its body arrived is the subject of C59 and C84."},
{"property": "C143", "status": "partial", "theorems": ["C143_fetch", "C143_effect", "C143_push", "C143_fetch_ssh", "C143_push_ssh", "C143_refuted"], "note": "For every state and pattern of failing statements: fetches that name the same commits are answered alike when their words agree on side-band or side-band-64k and, if haves are named, on multi_ack_detailed and no-done, whatever else the words say (C143_fetch over HTTP; C143_fetch_ssh for whole SSH connections); pushes of the same command and pack have the same effect whatever the words (C143_effect) and the same reply when they agree on the side band (C143_push, C143_push_ssh). So ofs-delta, report-status, report-status-v2, multi_ack, deepen-since, deepen-not and unknown words have no consequence. The user-level statement is false for report-status: a client that did not ask for a status report is sent one (C143_refuted)."},
{"property": "C144", "status": "partial", "theorems": ["C144_once", "C144_run", "C144_taken", "C144_shown", "C144_refuted"], "note": "For every state, request and pattern of failing statements: if each name of each repository stands for one reference, it still does after any request that is no push, any push of one command over HTTP or SSH that does not create, and any that creates a name that is not taken, whatever pack follows (C144_once), and so after any number of such requests (C144_run). Premises: for requests that show the references, that a LIKE search for the path finds the path itself; for SSH pushes, that the name is new when the references have been shown. SSH pushes of other shapes than a command packet and a pack packet, and HTTP pushes of other bodies than one command, are not covered. The user-level statement is false: a push that creates a name that is taken is answered ok and the name then stands twice (C144_taken); both commits are shown under it (C144_shown); C144_refuted is a repository where this happens."},
{"property": "C145", "status": "partial", "theorems": ["C145_alike", "C145_refuted"], "note": "For any number of requests over HTTP for the references of a directory below a repository, and any fetches, served at once in any order of their actions and with any failing statements: one commit is made for the directory, described as in C57, every client that is answered is shown it as the head, and all that is ever added are copies of one commit row and rows giving the directory the one name for that commit (C145_alike). Premises: one head row (or rows that agree) above the directory and none at it, one content for the head's commit, one tree id for the directory's name, the made commit is not the head of the repository. Not covered there: pushes or SSH sessions at the same time. The user-level statement is false: two clients at once leave two rows for the name; a later update is answered ok and moves only one, so the name stands for two commits, while after the same two requests one after the other the same update leaves one (C145_refuted)."},
{"property": "C146", "status": "proved", "theorems": ["C146_index_ends", "C146_index_partly", "C146_index_longer", "C146_index_whole", "C146_pack_same", "C146_pack_errors", "C146_pack_partly", "C146_no_file"], "note": "Index files read by name: a whole index gives its lines (C146_index_whole); of two accepted index files none is the beginning of the other (C146_index_ends), so an index that was written or read only in part, also when the error of reading is dropped as the code does, or that has bytes after its end, aborts (C146_index_partly, C146_index_longer). Pack files read by name: the result is that of decode, the two assertions never fail (C146_pack_same), no error is returned (C146_pack_errors), and a pack read only in part aborts (C146_pack_partly; premises as in C105: a streaming inflater, no id for two objects, less than 4 GiB). A file that cannot be opened aborts (C146_no_file). Bytes after the end of a pack file: C147."},
{"property": "C147", "status": "proved", "theorems": ["C147_decode", "C147_file", "C147_one_end", "C147_push", "C147_answered", "C147_ssh"], "note": "Every file the decoder accepts, well formed or not, is accepted with the same result whatever follows it (C147_decode, and read by name C147_file; premise: the inflater reads from left to right). Together with C105 a file has at most one beginning that is a pack (C147_one_end; premises as in C105). A push over HTTP whose body goes on after the pack has the same answer and does the same to the database (C147_push); if it is answered the whole state is the same (C147_answered); over SSH for a pack packet that goes on (C147_ssh). Premise of the last three: no temporary file is left from the same second (see C140)."},
{"property": "C148", "status": "proved", "theorems": ["C148_choice", "C148_one", "C148_base"], "note": "C148_choice: a pack written by encode_delta has the header, one entry for each object in order, and the SHA-1 of all that; an object is written whole exactly if no object nearby (at most nine places before, all from there on of its type) has more than half of it in common, else as an offset delta against the one that has most in common, of several the nearest; in a debug build the distance is that of its entry (the release build misencodes some distances, see C19). C148_one: there is one choice. C148_base: same type, strictly earlier, at most nine places. The diff engine is any that gives edit scripts; contents below 16 MiB. The similarity rates are compared exactly; for such sizes the rounding of f64 does not change the comparisons (not proved)."},
{"property": "C149", "status": "proved", "theorems": ["C149_decode", "C149_push", "C149_ssh", "C149_encoders"], "note": "C149_decode: two packs of the same set of objects decode to the same objects under the same ids. C149_push, C149_ssh: pushes that differ only so get the same answer and leave the same database and statement log; if answered, no file tells them apart. The same scheduling and row order are assumed of both runs (the oracle of the environment is the same function). C149_encoders: in particular a list of objects written with deltas, and any permutation of it written whole. Packs below 4 GiB whose objects do not collide, well-formed as git writes them (SpecPack.git_pack), thin ones included."},
{"property": "C150", "status": "partial", "theorems": ["C150_apart", "C150_refuted"], "note": "The statement is false of requests whose object ids are arbitrary text. C150_refuted: a batch that names an id with '..' in it looks at the temporary file of a push, so its answer depends on whether a push is in progress. C150_apart: with ids of letters and digits only, whatever turns the requests take, git's programs, answers, rows, statement log and temporary files are those of the same git requests served without git-lfs, and the answers, locks, records and contents of git-lfs are those without git; the content directory is not one whose name begins with 'temp-' in the working directory. The tables of git and of git-lfs are modelled apart, and so are their streams of statement outcomes."},
{"property": "C151", "status": "proved", "theorems": ["C151_fetch_during"], "note": "C151_fetch_during: whatever else is served meanwhile, and whichever statements fail, a fetch over HTTP that is answered has in its pack exactly the trees and blobs of the wanted commits as the repository was at one moment during the fetch, and the repository was complete then; each have and want is acknowledged as its id was known at some moment during the fetch. That this is what a fetch gets when nothing else is served is C45_http_fetch; that the wanted commits themselves are missing from the pack is C54_wanted_commit_refuted."},
{"property": "C152", "status": "proved", "theorems": ["C152_ssh_clone", "C152_ssh_fetch"], "note": "C152_ssh_clone and C152_ssh_fetch: as C88 and C151, for sessions over SSH. The reply of the session is what was sent when it began (the greeting), then the answer of which the statement speaks; the theorems say nothing of the greeting itself (C101 says what it is when nothing else is served). The client's request is taken to arrive in one packet, as in C103."},
{"property": "C153", "status": "partial", "theorems": ["C153_http", "C153_ssh", "C153_refuted"], "note": "C153_http and C153_ssh: whatever else is served meanwhile, and whichever statements fail, a client that is answered is shown HEAD as it was at one moment and the references as they were at one moment not before it, both during its request (for repositories with none above them; the columns of references short at each of these moments). C153_refuted: the two need not be one moment: while a repository is pushed to for the first time, HEAD is shown as unborn although a master branch is listed, which there was at no moment."}
]}
