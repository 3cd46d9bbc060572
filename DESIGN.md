# Formal model of gust in Rocq (Coq 8.16.1)

The source under study is `/repo` (Rust). It is read as text; nothing of it is
built or executed. This document says, per property of `properties.jsonl`, what
is modelled and how it is proved, and states the trusted base.

## 1. Method

* **Model files** (`Model*.v`) contain total computable Gallina functions, one
  per Rust function, each with a comment citing file and lines. No proofs.
* **Specification files** (`Spec*.v`) contain the small independent vocabulary
  in which the properties are stated (git's formats as relations or reference
  decoders, abstract sets, abstract lock tables, ...). They do not use the
  helpers of the model.
* **Proof files** (`Proof*.v`) contain the lemmas.
* **Property files** (`Prop*.v`) contain only `Theorem Cxx_...` with
  `exact lemma`, a concrete instance next to it, and `Print Assumptions`.

Common conventions:

* A byte is an `N` below 256, a byte string a `list N`; Rust `String`s are byte
  strings that passed the modelled UTF-8 check.
* Result type `res A := Ok a | Err e | Panic | OutOfFuel`. `Panic` is every Rust
  panic (unwrap, slice out of range, arithmetic overflow in debug builds, failed
  assertion). `OutOfFuel` is only produced by functions whose Rust counterpart
  may fail to terminate; theorems exclude it or prove that it is the only outcome.
* Build mode `Debug | Release` is a parameter of every function whose result
  depends on overflow checks; machine integers wrap explicitly (`mod 2^64`).
* Readers return the remaining input; files with positions are a byte string
  and an offset.
* SHA-1, SHA-256 and CRC-32 are implemented in Gallina (checked on published
  test vectors), so ids are concrete values and not an assumption.
* zlib is a parameter `codec` (`deflate`, `inflate`) with the explicit premise
  `codec_ok` (inflating a deflated string followed by anything returns the string
  and the number of bytes of the deflated string). A stored-block zlib
  implementation shows the premise is satisfiable.
* The Myers diff engine (crate `diffs`) is an arbitrary valid edit script.
* `HashMap` iteration order, thread interleavings and row order chosen by the
  database are universally quantified (arbitrary permutations / schedules).
* When the English property is false of the code, the theorem `..._refuted`
  exhibits a witness and a further theorem characterises exactly when the
  property does hold.

## 2. Properties: what is modelled and how it is proved

| id | model | proof idea |
|----|-------|------------|
| C01 | `read_size_encoding`, `write_size_encoding` with u8 shift counter | induction on the number of 7-bit groups |
| C02 | header part of `convert_to_vec`, `read_type_and_size` | arithmetic lemma over C01-style induction; refutation at 2^61 |
| C03 | `write_offset_encoding` (both modes), `read_offset_encoding` | digit induction; `iff` characterisation; witness 16384 |
| C04 | same reader; git's reference encoder as specification | well-founded induction on n |
| C05 | `u32_vec`, `read_u32`, `read_bytes` | arithmetic |
| C06 | `from_bytes`, `to_plain_str`, `hex_char_value` | induction over pairs of characters |
| C07 | `from_meta`, concrete SHA-1 | framing injectivity: first NUL, first space |
| C08 | `to_folder`, `to_filename` | injectivity of hex printing |
| C09 | loose file bytes, file system as map from paths | first-occurrence lemmas |
| C10 | `read_object_from_file` | refutation, for every wrong length |
| C11 | `apply_delta(_instruction)`; git delta format as an inductive relation | soundness and completeness by induction over the stream |
| C12 | same | corollary of C11 plus abort witness for every cut literal |
| C13 | `DeltaDiff` as a fold over script calls, `decode_op` | invariant: emitted ops reconstruct the processed prefix of the target |
| C14 | same | symbolic witness of 2^24 equal bytes |
| C15 | `encode_header`, `check_header` | arithmetic |
| C16 | `Pack::encode`, `Pack::decode`, `next_object`, cache | induction over the object list with a decoder-state invariant |
| C17 | `append_hash_signature`, `decode` | by construction; refutation for all trailers |
| C18 | `encode_delta` | invariant relating window, offsets and cache |
| C19 | `encode_delta` | witness built around a 16384-byte distance |
| C20 | `next_object` with fuel | well-founded on offsets; refutation for all fuels |
| C21 | cache operations along `decode` | invariant over all decode steps |
| C22 | `next_object`, `number_type` | direct |
| C23 | `pack_object_dir` | C16 invariant applied to the concatenation |
| C24 | `multi_decode` | fold of C16/C21 |
| C25 | `decode_by_idx` | direct |
| C26 | `Idx::encode`, `Idx::decode`, `get_offset` | sorted-map lemmas, counting lemmas for the fan-out |
| C27 | same | symbolic witness |
| C28 | `Tree::encode_metadata`, `decode_metadata` | induction over entries |
| C29 | same | induction over the decoder |
| C30 | `AuthorSign` | first-occurrence lemmas |
| C31 | `Commit` | composition of C30 |
| C32 | same | exact characterisation and witness |
| C33 | same | inversion of the decoder |
| C34 | `Tag` | composition |
| C35 | `update_from_cache` | permutation argument over schedules |
| C36 | `check_completeness`, `vec_sliding_window` | direct |
| C37, C38 | `add_pkt_line_string`, `read_pkt_line` | hex lemmas |
| C39, C40 | `build_side_band_format`, send loops | induction over chunks; reference client demultiplexer |
| C41, C42 | `git_info_refs`, `get_ref_object_id` | reference client parser |
| C43, C44, C45 | `git_upload_pack` as a loop with fuel; `ack_haves_db`, `ack_wants_db` with the lookups (PropNegotiate.v) | induction over the request; divergence for all fuels |
| C46-C49 | `git_receive_pack` state machine, HTTP driver, refs table | symbolic execution for all requests |
| C50 | `RefCommand` | case analysis |
| C51-C54 | `Repo`, `build_node_tree`, `convert_node_to_model`, node/commit tables, `get_child_trees`, full and incremental packs | closure induction |
| C55 | refs table | table lemmas |
| C56 | `save_nodes` | fold invariant |
| C57, C58 | head lookup, child commits | symbolic execution; witnesses |
| C59, C60 | list of database writes of a push; every prefix; failure oracle | prefix invariant |
| C61-C65 | lock table, handlers | invariant over histories; small-step interleavings for C62 |
| C66 | content store and meta table histories | invariant; witness history |
| C67 | `transform_key`, path join | list lemmas |
| C68 | `lfs_process_batch`, links, router | map over the batch |
| C69-C71 | string replacement, regular expressions as predicates | string lemmas |
| C72 | temp file steps | interleaving witness |
| C73, C74 | `Pack::decode` on git's own pack format (inductive relation) | invariant over entries; a base later in the pack is refused |
| C75, C76 | `Idx::decode`, `Idx::encode` | case analysis of the reader; CRC of the entry bytes |
| C77 | base object decoders against git's formats | composition; exact characterisations |
| C78 | side-band chunk size | arithmetic over the chunk list |
| C79 | `lfs_process_batch`, `store_exist` | two runs related by agreement below the content directory |
| C80-C84, C86 | requests and sequences of requests (`serve`, `serve_all`) over the handlers | every step of the database log satisfies a transition relation; induction over the sequence |
| C85 | the same, through the gateway | composition of C46, C82, the clone invariant behind C51, C43 and C39 |
| C87-C91 | the handlers once more as programs whose statements and file operations other requests may come between (`ModelConc.v`); proved equal to the handlers when run alone | rely/guarantee: a predicate on programs (`hold`) that survives every step other requests can make; the clone is related to the state at its first SELECT; concrete schedules for the refutations |
| C92, C93 | the same programs | rely/guarantee the other way round: the run of one push satisfies assertions that survive every step of the others (`keeps`, `avoids`); induction on the program for its end |
| C94-C98 | serde's readers and writers of the LFS structs (`ModelJson.v`), the handlers on bodies | the reader is proved equal to the JSON grammar (`document_iff`), by induction on values and on texts; each struct reader is proved exact against a relation on JSON values; the writer spells what it is given |
| C99, C100 | `build_node_tree`, `convert_node_to_model` (`ModelStorage.v`) | invariant of the recursion on trees with its cache of ids: exactly one row per entry whose id is not in the cache, ids distinct; `rows_shape` (`SpecStorage.v`) is now part of `rows_for`, so C46, C48 and C92 say it too |
| C101-C103 | `ssh_command`, `ssh_data`, `ssh_session` (`ModelProto.v`) | the greeting by symbolic execution of the fixed offsets and C18/C54; a session of the two packets of a push is the composition of the two steps of C46; the clone uses the same lemmas as C85 |
| C104, C105 | `ssh_session`, `git_receive_pack`, `decode` | induction on the packets; for a cut pack, induction on the pack body to find the entry that is cut, then the entry reader fails on every proper prefix of an entry (`ProofShort.v`), given that the inflater needs the end of its stream |
| C106, C107 | `get_head_object_id`, `generate_child_commit_and_refs`, `git_info_refs` | case analysis on the rows returned; `path_starts_with` and `file_name` are equal to the relations `within` and `last_name` of `SpecPath.v` (`ProofPath.v`), which speak of names between slashes and not of the algorithm; a concrete run with nested repositories for the refutation |
| C108 | `commit_cmp`, `tag_cmp`, `tree_cmp`, `blob_cmp` and the four `==` (`ModelDecode.v`) | algebra over the order of byte strings; concrete objects for the refutations |
| C109, C110 | `conn_step`, `conn_run` (`ModelConn.v`): the events of one SSH connection | induction on the events; a session on one channel is the `serve` of `ModelService.v`, so C109 for sessions that take turns is a composition of those; two concrete pushes for the refutation |
| C111 | `load_key`, `load_key_cut`, `starts` (`ModelConn.v`) | induction on the starts; the file keeps its 64 bytes, or any fewer |
| C112 | `upload_loop`, `git_upload_pack` (`ModelPkt.v`, `ModelProto.v`) | induction on the lines of two requests that differ by ignored lines; the first four bytes after a length decide whether a reply can begin with shallow lines; C46 followed by the clone lemmas of C85 for the whole history |
| C113 | `serve` (`ModelService.v`) against the store of `SpecServer.v` | refinement: an invariant (`stands`) between store and tables, kept by every step of `run`; the steps are C46, C102 (pushes), C82 (other repositories), C80 (fetches); two histories with one object to an id lead together to what each leads to (`reach_two`) |
| C114-C116 | `read_object`, `parse_from_file`, `find_common_base` (`ModelLoose.v`) | first-occurrence lemmas; both framings of one content; the search returns what it was given (induction on the fuel) |
| C117 | `find_all_pack_file`, `sort_packs`, `multi_decode_dir` (`ModelLoose.v`) | the names by a relation on listings (induction, cutting UTF-8 texts); sorting gives a permutation, unique when times differ; C24 |
| C118-C121 | `http_handle`, `http_run` (`ModelHttp.v`) | case analysis on the routes of C71; queries against the grammar of forms in `SpecHttp.v` (`spelt`, `form`), by induction on the spelling; for C120 the requests of a run are those of `ModelService.v`; C121 by the invariant of the content store |
| C122, C123 | `http_handle`, the handlers of git-lfs on JSON values, `remove_git_suffix` | equivalences: a response exists exactly when the lookups succeed; concrete runs for the refutations |
| C124 | `lfs_handle`, `lfs_run` (`ModelLfs.v`) against the book of `SpecBook.v` | refinement: the locks that a row's text spells are the book's list for the ref, kept by every request; induction on the history |
| C125, C126 | the git-lfs handlers once more as programs whose statements and file operations other requests may come between (`ModelLfsConc.v`); proved equal to `lfs_handle` when run alone (`C126_programs`) | invariants kept by each action of each program (`ends`), for every schedule; the file of an object is missing, cut to nothing or whole while uploads of one content run; concrete schedules for the refutations |
| C127 | the same programs | non-interference: each action of a request is about its ref or its objects (`only`), depends on that part of the state only and leaves the rest; simulation of the run alone |
| C128 | the same programs | C127 with C68; an invariant that rows are not removed; a schedule with two INSERTs |
| C129 | the runs of C113 | a repeated push is a push that the store of C113 allows, or a stale update (`run_stale`), and brings a set of objects that is there; a concrete run for the refutation |
| C130 | C124 through the router, queries, JSON bodies and responses (SpecWire.v) | a step lemma per route: the request asks a book event (C71, C94, C119), the handler refines the book (C124), the reply is spelled in the response (C96); induction over the history |
| C131 | the content API over HTTP as a shelf of announced sizes and filed contents (SpecShelf.v) | refinement: rows ↔ announced, files at sharded places ↔ filed (places of proper ids are distinct and do not nest); a step lemma per route as in C130; induction over the history |
| C132 | push, then pull, over HTTP (SpecShelf.v: honest, sends, fetches, inquires) | on the shelf of C131: for an id of which all say the same, announced and filed only grow; cut the run at the two requests |
| C133 | names that differ in case (PropCase.v: `same_but_case`, `ignores_case`) | the tables are only asked through the comparison: fetch, greeting, update push and locks of one name are those of the other |
| C134 | failed statements of git-lfs (PropFail.v: `sent`, `failing`) | the outcomes consumed by a request; a monadic rule: after a failure no success is yielded; lock and unlock statement by statement |
| C135 | deltas against stored objects (PropThin.v: `server_has`, `bases_there`) | which rows a lookup by id can return; packs are monotone in what the storage knows; C46, C73, C74 |
| C136 | directories with stray files, packing again (PropDir.v: `new_pack`, `stray_content`, `mixed_dir`) | as C23, with reading of unknown kinds; keys of a decoded cache are the ids of its objects |
| C137 | what does not fit the columns (PropFit.v: `longer`, `graph`, `nodes_fit`, `too_big`) | as C46 without the premise on commits; statements turned down by `commit_fits`, `node_fits`, `ref_fits`; chunks of a hundred |
| C138 | git requests while statements fail (PropOutage.v: `working`, the same world with no failures) | the failures of `w_fails` in `attempt`/`execute`, for every pattern; HTTP and SSH fetches, discovery, HTTP pushes of one command |
| C139 | what the decoder accepts (PropAccept.v: `reads_at`, `in_a_row`, `leads`, `hdr_says`, stated over the bytes of the file) | `decode` and `next_object` for all byte strings; SHA-1 clashes within one file are a disjunct |
| C140 | files that git requests leave (PropFiles.v: `cleaned`, `left_over` on what each path holds) | `w_files` under `serve` and `serve_all`; the temporary file of `git_receive_pack` is the only one written |
| C141 | addresses over SSH (PropAddress.v: `git_command` is what a git client sends for a path) | `ssh_command`: the second word of the command sliced by position |
| C142 | bodies in pieces (PropBody.v: `intact`, `brings`, `untouched`) | `stream_handle` (ModelBody.v): the loops over the body stream in front of the handlers of ModelHttp |
| C143 | words of the client (PropCaps.v: `bands_alike`, `acks_alike`, `same_item`, `fetch_body`; `push_request` of PropProto.v) | `http_upload_pack`, `http_receive_pack`, `serve` on `QSsh` |
| C144 | names of references (PropOnce.v: `ref_keys`, `one_each`, `taken`, `careful`) | `serve`, `serve_all`, `http_receive_pack`, `git_info_refs` |
| C145 | looks at a directory at once (PropGlance.v: `glances`, `seen`) | `interleave`, `head_p`, `child_p`, `info_refs_p`, `serve` |
| C146 | files as read (PropRead.v: `partly`; ModelRead.v: `on_disk`), git's index and pack formats | `idx_decode_from_path`, `pack_decode_file` |
| C147 | files with a rest, two runs compared (PropTail.v: `same_but_file`) | `decode`, `next_object`, `git_receive_pack`, `http_receive_pack`, `ssh_session` |
| C148 | similarity and nearness (PropPick.v: `matched`, `nearby`, `best`, `written`), git's entry and delta formats | `window`, `delta_entry`, `delta_loop`, `encode_delta` |
| C149 | git's pack format, equality of the sets of objects (PropForm.v: `same_objects`) | `decode`, `bt_insert` (`by_hash`), `update_seq`, `save_packfile`, `git_receive_pack`, `http_receive_pack`, `ssh_session` |
| C150 | the two systems run without each other (`interleave`, `linterleave`), the temporary files and the files of ids (PropBoth.v: `alike`) | `serve_p`, `lfs_p`, `git_receive_pack`, `put`, `get`, `exist` over one disk (`ModelBoth.v`: `side_by_side`) |
| C151 | reachability in the repository as it was at one moment (SpecStorage, SpecConc: `moment`), acknowledgements of PropNegotiate.v | `upload_p`, `ack_haves_p`, `ack_wants_p`, `incremental_pack_p`, `child_trees_p` among other programs (`ModelConc.v`) |
| C152 | as C88 and C151, for the part of the reply after the greeting | `ssh_command_p`, `ssh_session_p`, `ssh_data_p`, `upload_p` among other programs (`ModelConc.v`) |
| C153 | `head_at`, `listing`, `advert` of the tables at two moments (SpecStorage, SpecProto, PropGreet.v) | `info_refs_p`, `head_p`, `get_ref_object_id_p`, `ssh_command_p` among other programs (`ModelConc.v`) |

## 3. Trusted base

### 3.1 Logic

* The kernel of Coq 8.16.1, including its conversion by `vm_compute` (used for
  test vectors and for concrete instances next to the theorems).
* `Assumptions.v` prints, per property file, the assumptions of a tuple of all
  its property theorems. Every one of them is `Closed under the global context`:
  no axiom is used, neither of the standard library nor of our own. (`coqchk`
  lists axioms of standard library modules that are loaded, such as those behind
  `Reals` or `ssr`; no theorem depends on them.)
* No functors, module types, plugins or switched-off checks are used.

### 3.2 The correspondence between model and code

The model is a hand translation of the text of `/repo`; that it is faithful is
trusted. Each definition cites the lines it renders. Mutation testing
(`seeded/LOG.jsonl`) checks that the theorems notice changes of the model, not
that the model equals the code.

| model file | code |
|------------|------|
| `ModelUtils.v` | `src/git/utils.rs` |
| `ModelObject.v` | `src/git/hash.rs`, `object/types.rs`, `object/metadata.rs` |
| `ModelDelta.v` | `object/delta.rs` 24-100, `object/diff.rs` |
| `ModelPack.v` | `pack/cache.rs`, `pack/mod.rs`, `pack/encode.rs`, `pack/multidecode.rs` |
| `ModelIdx.v` | `src/git/idx/mod.rs` |
| `ModelRead.v` | `decode_from_path` (`src/git/idx/mod.rs`), `decode_file` (`src/git/pack/mod.rs`) |
| `ModelBase.v` | `object/base/*.rs` |
| `ModelDecode.v` | `pack/decode.rs`, `decode_by_idx`, `Pack::write` |
| `ModelPkt.v` | wire formats of `protocol/pack.rs`, `protocol/mod.rs`, sending loops of `http.rs`, `ssh.rs` |
| `ModelStorage.v` | `gust/driver/database/mysql/storage.rs` (repositories), `gust/driver/structure/*.rs` |
| `ModelProto.v` | sessions: `protocol/mod.rs`, `pack.rs`, `http.rs`, `ssh.rs` |
| `ModelLfs.v` | `src/git/lfs/*.rs`, LFS part of `storage.rs`, `gust/driver/lfs_content_store/mod.rs` |
| `ModelJson.v` | `serde` attributes of `src/git/lfs/structs.rs`, the JSON text of requests, replies and the lock column |
| `ModelGateway.v` | `src/gateway/api/lib.rs` (routing) |
| `ModelService.v` | which handler serves a request (`api/lib.rs`, `ssh.rs`), one after the other |
| `ModelHttp.v` | heads of responses, queries and routing of `gateway/api/lib.rs` 34-214, `protocol/http.rs` 20-33, heads in `lfs/http.rs` |
| `ModelBody.v` | the loops that take in the bodies of requests (`protocol/http.rs` 66-70, 93-96, `lfs/http.rs` 97-101, 173-177, 265-269, 348-352, 447-451) |
| `ModelConn.v` | one SSH connection with its channels and logins (`ssh.rs` 22-110), the host key (`ssh_server.rs` 50-72) |
| `ModelLoose.v` | `object/delta.rs` 102-187, `parse_from_file` of `object/base/*.rs`, `protocol/pack.rs` 287-380, `utils.rs` 272-305, `pack/multidecode.rs` on directories |
| `ModelConc.v` | the handlers of `ModelStorage`, `ModelProto`, `ModelService` as interleaved programs |
| `ModelLfsConc.v` | the handlers of `ModelLfs` as interleaved programs: one action is one statement, one look whether a file exists, the creation of a file, one write, or opening and reading a file to its end |
| `ModelBoth.v` | the programs of `ModelConc` and `ModelLfsConc` taking turns over one disk; their tables, logs and streams of statement outcomes stay apart; relative paths of git are below the working directory |

### 3.3 What is taken for granted about the surroundings

These enter theorems as parameters with explicit premises; each premise has a
concrete instance (`Example` next to the theorem), so none is vacuous.

* zlib (`codec`, premise `codec_ok`, instance `StoredZlib.stored`); in C104, C105, C146 and C147 also
  `streaming`: what the inflater returns, it also returns when more input follows, so it
  accepts no stream without its end (`ProofShort.stored_streaming`).
* The Myers diff engine: any valid edit script.
* The database server: one statement is one atomic step; the collation (`teq`)
  is an equivalence; `LIKE` with the pattern `CONCAT(repo_path, '%')`; rows may
  come in any order (`ord`); any statement may fail (`w_fails`, `l_fails`); the
  column sizes of `Dump20230523.sql` in strict mode; auto-increment keys.
* sea-orm: which statements its calls send. Whether `Insert::exec` succeeds for a
  text key is the parameter `key_insert_ok`. `ActiveModel::update` sends an UPDATE and
  then a SELECT of the row by its key (C84, C134).
* serde_json on lists of locks is a parameter of `ModelLfs` (`js_enc`, `js_dec`);
  `ModelJson.v` (`write_locks`, `read_locks`) is proved to meet its premises (C98).
* `ModelJson.v` renders `serde_json::from_slice`, `from_str`, `to_string` and the
  derived readers and writers of the structs in `lfs/structs.rs`. Their source
  (serde 1.0.160, serde_json 1.0.96) is not on the box: they are modelled from
  their documented behaviour. Depth limit 128 of serde_json: unknown members are
  skipped without recursion, known ones are less deep, so it does not appear.
  axum sends the text of an `Err((status, text))` as it is.
* axum 0.6 with serde_urlencoded and form_urlencoded (`ModelHttp.v`): a query is split at
  `&` and `=`, `+` is a space, escapes are decoded, what is not UTF-8 is replaced; a field of
  the struct that comes twice is an error (400), unknown ones are skipped. The path of a URL
  is what was sent (`Uri::path`). Modelled from their documented behaviour.
* Crate colored: whether it colours is a parameter (`colour`, C114).
* Iteration orders of hash maps and sets: arbitrary permutations.
* The operating system: files are a map from paths to contents, writing replaces
  the content (of the temporary file of a push: its first bytes, as the code opens
  it without truncation); no symbolic links; no case folding; which paths can be
  opened and how much one `write` takes are parameters of `ModelLfs`.
* SHA-1, SHA-256, CRC-32: Gallina functions, checked on published vectors
  (`DigestTests.v`); no collision-resistance premise is used unless a theorem
  says so.
* tokio, hyper and russh: a panic ends the task of its connection and nothing else.
  In `ModelService.v` (C80-C86) requests are served one after the other. In
  `ModelConc.v` (C87-C93) they are served at once: one step is one statement, one
  operation on the temporary file (the whole write, the whole read, the removal) or
  the decoding of a pack with its lookups of bases; the scheduler is any list of
  request numbers. `ModelLfsConc.v` (C125-C128) does the same for git-lfs; there the
  creation of a file and the write are two steps, opening and reading it is one.
  C35, C62 and C72 have interleavings of their own.

### 3.4 Not modelled

* `src/main.rs` (command line), the socket set-up of `src/gateway/ssh_server.rs` and
  the parts of russh, axum, hyper and tokio below the handlers: signatures and
  encryption, flow control of channels, TCP, timeouts, HTTP header syntax. `ModelConn.v` has the handlers called in the order of the
  events; a key is offered only with a signature that russh has verified.
* `gust/driver/fs/file_system.rs` and `id_generator.rs` (ids of rows that the code
  never reads again).
* Columns that are written and never read (times, ids of node rows).
* Memory exhaustion, except where an allocation size overflows; log output;
  rounding of `f64` (only used for ratios compared with constants).
