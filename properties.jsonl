{"id": "C01", "title": "Checked buffer operations stay inside the block and fail atomically", "statement": "For a block obtained from buffer::alloc, any sequence of put(byte/int32/ulong/string/buffer), get_byte/get_int/get_ulong/get_str, pos(p), size() and data() touches only bytes of that block, keeps 0 <= pos() <= size(), never changes size(), and an operation that throws leaves position and contents exactly as they were.", "quantifier": "every block size below 2^31, every initial (uninitialised) content, every finite sequence of operations with every argument", "why_tests_cant": "Block sizes, contents and operation sequences are unbounded; the position is stored in 16 or 32 bits with the block kind encoded in its top bit, so a violation may need a specific size/position combination.", "anchors": ["src/buffer.cxx: buffer::alloc, buffer::put, buffer::get_int, buffer::get_ulong, buffer::get_byte, buffer::get_str, buffer::pos, buffer::data", "include/buffer.hxx: buffer"]}
{"id": "C02", "title": "Values written to a buffer are read back unchanged", "statement": "After writing any sequence of bytes, int32s, ulongs, non-empty NUL-free strings and buffers that fits, rewinding with pos(0) and issuing the matching reads returns exactly the values written, in order, and ends at the same position.", "quantifier": "every finite typed sequence of values that fits in the block, every block size and initial content", "why_tests_cant": "Quantifies over all values (2^64 ulongs, all int32 signs) and all sequences; a test samples a handful.", "anchors": ["src/buffer.cxx: buffer::put, buffer::get_int, buffer::get_ulong, buffer::get_byte, buffer::get_str"]}
{"id": "C03", "title": "Integers are stored little-endian two's complement", "statement": "put(int32)/put(ulong) store the value as 4/8 bytes, least significant first, two's complement for negatives, and change no other byte of the block; get_int/get_ulong decode any 4/8 bytes as exactly that value (so peers and on-disk files of any build agree).", "quantifier": "every int32, every ulong, every byte string of length 4/8, every position", "why_tests_cant": "All 2^32 / 2^64 values and all neighbouring contents.", "anchors": ["src/buffer.cxx: buffer::put, buffer::get_int, buffer::get_ulong"]}
{"id": "C04", "title": "alloc accepts exactly the sizes below 2^31 and reports them faithfully", "statement": "buffer::alloc(n) throws for n >= 2^31; otherwise size() = n, pos() = 0 and exactly n data bytes are usable, on both sides of the 2^15 small/big block switch, and the block kind can never flip while the position moves.", "quantifier": "every size_t n, every later position", "why_tests_cant": "The two header layouts share bits (the small block's position overlaps the big flag); all 2^31 sizes cannot be tried.", "anchors": ["src/buffer.cxx: buffer::alloc, buffer::size, buffer::pos (macros __is_big_block, __size_of_block, __pos_of_block)"]}
{"id": "C05", "title": "buffer::get(dst) copies the requested bytes or rejects the request", "statement": "get(dst) fills dst's remaining space with the next bytes of the source and advances the source by that amount, or, if the source holds fewer bytes, throws without reading outside the source block.", "quantifier": "every source and destination size and position", "why_tests_cant": "Depends on the relation between two arbitrary sizes; out-of-bounds reads are undefined behaviour that a passing test does not show.", "anchors": ["src/buffer.cxx: buffer::get"]}
{"id": "C06", "title": "Strings survive a put/get round trip", "statement": "put(s) followed by get_str at the same position yields s.", "quantifier": "every string s without NUL bytes, including the empty string, that fits in the block", "why_tests_cant": "Ranges over all strings; the empty string and missing terminator cases are special.", "anchors": ["src/buffer.cxx: buffer::put(const std::string&), buffer::get_str"]}
{"id": "C07", "title": "Buffer-to-buffer put and copy transfer exactly the unread bytes", "statement": "put(src) appends exactly src's bytes from its position to its end, changes nothing else, leaves src untouched, and throws (with no effect) when they do not fit; buffer::copy(src) yields a fresh rewound block holding exactly those bytes.", "quantifier": "every pair of buffers with every size and position", "why_tests_cant": "All size/position combinations, across the two block layouts.", "anchors": ["src/buffer.cxx: buffer::put(const buffer&), buffer::copy"]}
{"id": "C08", "title": "Server and cluster configurations survive serialization", "statement": "deserialize(serialize(c)) returns a configuration equal to c (log index, previous log index, ordered server list with ids and endpoints), consumes exactly the serialized bytes, and the serialized bytes never depend on uninitialised memory.", "quantifier": "every configuration with any number of servers, ids and endpoints whose encoding fits in a buffer", "why_tests_cant": "Unbounded number and content of servers; empty endpoints are a boundary case.", "anchors": ["src/srv_config.cxx: srv_config::serialize, srv_config::deserialize", "src/cluster_config.cxx: cluster_config::serialize, cluster_config::deserialize"]}
{"id": "C09", "title": "Snapshots and snapshot chunks survive serialization", "statement": "deserialize(serialize(x)) = x for snapshot metadata and for snapshot_sync_req (metadata, offset, done flag, the unread bytes of the data block, including empty data).", "quantifier": "every snapshot whose server endpoints are non-empty NUL-free strings (see C08), every offset, done flag and chunk content/position", "why_tests_cant": "Unbounded nested data.", "anchors": ["src/snapshot.cxx: snapshot::serialize, snapshot::deserialize", "src/snapshot_sync_req.cxx: snapshot_sync_req::serialize, snapshot_sync_req::deserialize"]}
{"id": "C10", "title": "Log entries survive serialization", "statement": "log_entry::deserialize(log_entry::serialize(e)) has e's term, value type and complete payload whatever the payload buffer's position was, and term_in_buffer on the serialized form returns e's term and rewinds the buffer.", "quantifier": "every term, value type byte and payload below the buffer size limit", "why_tests_cant": "All payloads and terms.", "anchors": ["include/log_entry.hxx: log_entry::serialize, log_entry::deserialize, log_entry::term_in_buffer"]}
{"id": "C11", "title": "RPC messages arrive as they were sent", "statement": "The bytes the TCP client writes for a request decode, in the TCP session, to a request with the same type, source, destination, term, last log term/index, commit index and the same list of log entries; the bytes written for a response decode to the same response.", "quantifier": "every request whose encoded log data is at most 16 MiB and every response", "why_tests_cant": "Unbounded number and size of entries; encoder and decoder are two separate hand-written functions in different classes.", "anchors": ["src/asio_service.cxx: asio_rpc_client::send, rpc_session::start, rpc_session::read_complete, asio_rpc_client::response_read"]}
{"id": "C12", "title": "Every log entry the API accepts can be delivered to followers", "statement": "Any entry a client may hand to the leader (any payload a buffer can hold) can be transported by the TCP session to a follower.", "quantifier": "every payload size accepted by buffer::alloc", "why_tests_cant": "Requires a 16 MiB boundary on the sum of encoded entries, far away from what tests send.", "anchors": ["src/asio_service.cxx: rpc_session::start (data_size > 0x1000000), asio_rpc_client::send"]}
{"id": "C13", "title": "The RPC session handles arbitrary bytes without undefined behaviour", "statement": "Whatever bytes arrive after a well-sized header, the session either builds a request or closes the session; it never reads outside the received data.", "quantifier": "every byte string received from a peer", "why_tests_cant": "Adversarial input space; out-of-bounds reads are silent in tests.", "anchors": ["src/asio_service.cxx: rpc_session::read_complete", "src/buffer.cxx: buffer::get"]}
{"id": "C14", "title": "The file log store behaves like an indexed log", "statement": "Starting from an empty folder, after any sequence of append, write_at, compact, apply_pack, reads and reopens, start_index, next_slot, last_entry, entry_at, term_at and log_entries answer exactly as an abstract log (a start index and a list of entries) would; append returns the new index and write_at(i,e) replaces entry i and drops everything after it.", "quantifier": "every finite operation sequence with arbitrary entries and indexes (default unlimited cache)", "why_tests_cant": "Unbounded histories mixing overwrites, truncation, compaction and cache.", "anchors": ["src/fs_log_store.cxx: fs_log_store::append, write_at, entry_at, term_at, log_entries, compact, apply_pack, fill_buffer, log_store_buffer"]}
{"id": "C15", "title": "Reopening the store after a clean close yields the same log", "statement": "Closing the store and opening the same folder again yields the same start index, next slot and entries.", "quantifier": "every store state reachable by append, write_at, compact, apply_pack and reopen", "why_tests_cant": "The on-disk layout depends on the complete history of overwrites and compactions.", "anchors": ["src/fs_log_store.cxx: fs_log_store::fs_log_store, fill_buffer"]}
{"id": "C16", "title": "Overwriting the last entry with a shorter one is durable", "statement": "After write_at(i, e) the data on disk decodes to exactly the entries the store reports, also when e is shorter than the entry it replaces.", "quantifier": "every store state, index and pair of entry sizes", "why_tests_cant": "Needs an overwrite at exactly the last index with a shorter entry, followed by reopen, pack or compact.", "anchors": ["src/fs_log_store.cxx: fs_log_store::write_at (truncate only if the index file shrinks), fs_log_store::apply_pack"]}
{"id": "C17", "title": "The in-memory cache never changes answers", "statement": "With any cache size, entry_at, term_at, last_entry and log_entries answer as the unlimited cache would.", "quantifier": "every cache size >= 1 and every operation history", "why_tests_cant": "Needs an overwrite below the cached window (log_store_buffer::trim returns early).", "anchors": ["src/fs_log_store.cxx: log_store_buffer::trim, log_store_buffer::append, log_store_buffer::fill, fs_log_store::write_at"]}
{"id": "C18", "title": "log_entries(start, end) returns exactly the entries in [start, end)", "statement": "For start_index() <= start < end, log_entries returns exactly the entries whose index is in [start, min(end, next_slot())), in order, and nil when there is none.", "quantifier": "every start, end, log length and cache size", "why_tests_cant": "Depends on the three-way relation of start, end and the first cached index.", "anchors": ["src/fs_log_store.cxx: fs_log_store::log_entries, log_store_buffer::fill"]}
{"id": "C19", "title": "pack/apply_pack transfer log ranges exactly", "statement": "Applying at index i of one store the pack of entries [j, j+cnt) of another makes the receiving store's log equal to its entries below i followed by exactly the packed entries.", "quantifier": "every pair of stores, start index and count", "why_tests_cant": "Offsets are rebased between two files; unbounded sizes and histories.", "anchors": ["src/fs_log_store.cxx: fs_log_store::pack, fs_log_store::apply_pack"]}
{"id": "C20", "title": "Compaction removes exactly the prefix", "statement": "compact(k) makes start_index() = k+1, keeps every entry with index > k unchanged, keeps next_slot() (or makes it k+1 if k was beyond the end), and rejects k below start_index() with no effect.", "quantifier": "every store and every k", "why_tests_cant": "Rewrites and rebases both files; unbounded sizes.", "anchors": ["src/fs_log_store.cxx: fs_log_store::compact"]}
{"id": "C21", "title": "A crash during append never loses previously appended entries", "statement": "If the process stops at any point inside append, reopening the folder yields the log before the append or the log after it.", "quantifier": "every crash point inside append, every store state", "why_tests_cant": "Requires stopping between two specific file writes.", "anchors": ["src/fs_log_store.cxx: fs_log_store::append, fill_buffer"]}
{"id": "C22", "title": "Heartbeat interval stays between the configured interval and the maximum", "statement": "After any sequence of RPC successes and failures a peer's current heartbeat interval is between heart_beat_interval and max_hb_interval, grows by at most rpc_failure_backoff per failure and returns to the base interval on success.", "quantifier": "every parameter setting with non-negative backoff, every finite sequence of RPC outcomes", "why_tests_cant": "Unbounded sequences and parameter space.", "anchors": ["include/peer.hxx: peer::slow_down_hb, peer::resume_hb_speed", "include/raft_params.hxx: raft_params::max_hb_interval", "src/peer.cxx: peer::handle_rpc_result"]}
{"id": "C23", "title": "An asynchronous result's callback runs exactly once, with the result", "statement": "If when_ready is called once and set_result is called once, from two threads in any order, the handler is invoked exactly once, with the value passed to set_result; get() returns that value.", "quantifier": "every interleaving of when_ready, set_result and get", "why_tests_cant": "Depends on the thread schedule between the unlock and the has_result_ test.", "anchors": ["include/async.hxx: async_result::when_ready, async_result::set_result, async_result::get"]}
{"id": "C24", "title": "A cancelled timer does not fire", "statement": "Once scheduler->cancel(task) has returned, the task's action does not start until it is scheduled again; in particular a server that became leader never sees an election timeout.", "quantifier": "every interleaving of timer expiry, cancel and schedule", "why_tests_cant": "Depends on the schedule between the cancelled check and the handler taking the server lock.", "anchors": ["include/delayed_task.hxx: delayed_task::execute, cancel", "src/asio_service.cxx: asio_service::schedule, cancel_impl, _timer_handler_", "src/raft_server.cxx: raft_server::become_leader, raft_server::handle_election_timeout"]}
{"id": "C25", "title": "At most one append-entries/snapshot RPC is outstanding per peer", "statement": "Between sending an append-entries or install-snapshot request to a peer and receiving its response (or error), no further such request is sent to that peer.", "quantifier": "every history of heartbeats, commits, client requests, elections and responses", "why_tests_cant": "Depends on event order, including re-election while a request is pending.", "anchors": ["include/peer.hxx: peer::make_busy, peer::set_free", "src/raft_server.cxx: raft_server::request_append_entries, raft_server::become_leader", "src/peer.cxx: peer::handle_rpc_result"]}
{"id": "C26", "title": "A server's term never goes backwards", "statement": "The term saved through state_mgr::save_state never decreases over the life of a server, across restarts and crashes at any point, and the term in memory is never below the saved one.", "quantifier": "every history of messages, timeouts, crashes and restarts", "why_tests_cant": "All message histories, including delayed and duplicated messages.", "anchors": ["src/raft_server.cxx: raft_server::update_term, raft_server::become_candidate", "src/raft_server_req_handlers.cxx: raft_server::handle_join_cluster_req, raft_server::process_req"]}
{"id": "C27", "title": "A server votes for at most one candidate per term, even across crashes", "statement": "Two accepted vote responses (or a candidacy and an accepted vote response) issued by one server for the same term name the same candidate; the vote is saved before the response leaves.", "quantifier": "every history, every crash point between saving state and sending a response", "why_tests_cant": "All message orders and crash points.", "anchors": ["src/raft_server_req_handlers.cxx: raft_server::handle_vote_req", "src/raft_server.cxx: raft_server::request_vote"]}
{"id": "C28", "title": "A vote is granted exactly to candidates with an up-to-date log in the current term", "statement": "A vote request is accepted iff its term equals the server's term, the server has not voted for someone else in that term, and (last term, last index) of the candidate is at least (last term, last index) of the voter's log; nothing but the vote changes.", "quantifier": "every server state (including a fully compacted log) and every vote request", "why_tests_cant": "Needs the fully-compacted-log state; all term/index relations.", "anchors": ["src/raft_server_req_handlers.cxx: raft_server::handle_vote_req", "src/fs_log_store.cxx: fs_log_store::last_entry"]}
{"id": "C29", "title": "Append-entries accepts exactly consistent requests and installs exactly the leader's entries", "statement": "An append-entries request with the current term is accepted iff its (last index, last term) matches the follower's log (or is index 0); after acceptance the follower's log agrees with the request at every index the request covers, nothing before is changed, nothing after is dropped unless an entry conflicted, and the response carries last index + number of entries + 1; a rejected request leaves the log untouched and reports the follower's next slot.", "quantifier": "every follower log and every request", "why_tests_cant": "Unbounded logs and overlaps.", "anchors": ["src/raft_server_req_handlers.cxx: raft_server::handle_append_entries"]}
{"id": "C30", "title": "Duplicated or delayed append-entries requests do no harm", "statement": "Processing again a request whose entries are all already in the follower's log changes nothing in the log and issues no rollback; a request from an older term changes neither log, commit index nor known leader.", "quantifier": "every follower log and every request", "why_tests_cant": "All reorderings and duplications.", "anchors": ["src/raft_server_req_handlers.cxx: raft_server::handle_append_entries"]}
{"id": "C31", "title": "The commit index never goes backwards", "statement": "No event other than joining a cluster decreases the index up to which a server considers the log committed, nor the index applied to the state machine.", "quantifier": "every event and state", "why_tests_cant": "All histories.", "anchors": ["src/raft_server.cxx: raft_server::commit, raft_server::commit_in_bg", "src/raft_server_req_handlers.cxx: raft_server::handle_join_cluster_req, raft_server::handle_snapshot_sync_req"]}
{"id": "C32", "title": "Committed entries are applied in order, once, without gaps", "statement": "The background committer passes entries to the state machine in strictly increasing consecutive index order, never beyond the commit index or the end of the log, application entries exactly with their payload, and configuration entries to the configuration instead.", "quantifier": "every schedule of the committer relative to other events", "why_tests_cant": "All interleavings of the committing thread with message handling.", "anchors": ["src/raft_server.cxx: raft_server::commit_in_bg"]}
{"id": "C33", "title": "A leader's commit index is backed by a majority of reported match indexes", "statement": "When a leader processes an accepted append-entries response, the new commit target is the largest index that a strict majority of the cluster (the leader's own log end plus its peers' reported match indexes) has reached.", "quantifier": "every number of peers and every vector of match indexes", "why_tests_cant": "Sorting and median selection over arbitrary vectors and both parities of the cluster size.", "anchors": ["src/raft_server_resp_handlers.cxx: raft_server::handle_append_entries_resp"]}
{"id": "C34", "title": "Every pre-committed entry that is removed from the log is rolled back", "statement": "If the state machine saw pre_commit for an entry and that entry is later removed from the log by a conflicting append-entries request, the state machine sees rollback for it.", "quantifier": "every follower log and request", "why_tests_cant": "Needs a conflict with two or more uncommitted entries behind it.", "anchors": ["src/raft_server_req_handlers.cxx: raft_server::handle_append_entries", "src/fs_log_store.cxx: fs_log_store::write_at"]}
{"id": "C35", "title": "At most one leader per term", "statement": "In a cluster with fixed membership no two servers ever become leader in the same term.", "quantifier": "every cluster size, every message schedule with loss, duplication, reordering, every crash/restart pattern", "why_tests_cant": "Unbounded distributed histories.", "anchors": ["src/raft_server.cxx: raft_server::request_vote, become_candidate, become_leader, update_term", "src/raft_server_resp_handlers.cxx: raft_server::handle_voting_resp", "src/raft_server_req_handlers.cxx: raft_server::handle_vote_req"]}
{"id": "C36", "title": "Logs that agree on an entry's index and term agree on everything before it", "statement": "In a cluster with fixed membership, if two servers' logs hold entries with the same index and term, the logs are identical up to that index (terms, types and payloads).", "quantifier": "every cluster size, every schedule, every crash/restart pattern", "why_tests_cant": "Unbounded distributed histories.", "anchors": ["src/raft_server_req_handlers.cxx: raft_server::handle_append_entries, handle_cli_req", "src/raft_server.cxx: raft_server::create_append_entries_req, become_leader"]}
{"id": "C37", "title": "A leader never overwrites or deletes entries of its own log", "statement": "While a server remains leader of a term its log only grows at the end (apart from compaction of applied entries).", "quantifier": "every history", "why_tests_cant": "Unbounded histories.", "anchors": ["src/raft_server_req_handlers.cxx: raft_server::handle_append_entries, handle_cli_req", "src/raft_server.cxx: raft_server::become_leader"]}
{"id": "C38", "title": "All servers apply the same entry at each index", "statement": "If two servers pass an entry with the same index to their state machines, it is the same entry.", "quantifier": "every cluster size, every schedule, every crash/restart pattern", "why_tests_cant": "Needs a specific sequence of elections (the 'Figure 8' schedule).", "anchors": ["src/raft_server_resp_handlers.cxx: raft_server::handle_append_entries_resp", "src/raft_server.cxx: raft_server::commit, raft_server::become_leader"]}
{"id": "C39", "title": "Pre-vote requests have no side effects on the server asked", "statement": "Handling a pre-vote request changes no state of the server (term, vote, log, role, timers), and is granted iff the requester's term is at least the server's, its log is up to date and, in defensive mode, the server is itself pre-voting.", "quantifier": "every server state and request", "why_tests_cant": "All states and requests.", "anchors": ["src/raft_server_req_handlers.cxx: raft_server::handle_prevote_req"]}
{"id": "C40", "title": "A server without a leader always has an election timer running", "statement": "A server that is not leader, not joining and not stepping down always has an election timeout pending, so that it will eventually try to elect a leader.", "quantifier": "every history of events", "why_tests_cant": "Liveness-relevant state reached only by particular event orders (pre-vote started, leader comes back, leader fails again).", "anchors": ["src/raft_server.cxx: raft_server::handle_election_timeout, request_prevote, restart_election_timer", "src/raft_server_resp_handlers.cxx: raft_server::handle_prevote_resp"]}
{"id": "C41", "title": "A leader cut off from the majority stops accepting client requests", "statement": "If no majority of the cluster has responded within twice the election timeout upper bound, is_leader() is false and client requests are refused.", "quantifier": "every history of responses and every time", "why_tests_cant": "Needs a leader that was healthy at first and is cut off later.", "anchors": ["src/raft_server.cxx: raft_server::is_leader", "src/raft_server_req_handlers.cxx: raft_server::handle_cli_req"]}
{"id": "C42", "title": "Client requests: the leader appends them in order with its term, others refuse without effect", "statement": "On a valid leader a client request appends exactly the given entries, in order, stamped with the leader's current term, calls pre_commit for each with its index, and accepts with the new next slot; on any other server nothing is appended and the response is a refusal naming the known leader.", "quantifier": "every server state and request", "why_tests_cant": "All states, entry lists and terms.", "anchors": ["src/raft_server_req_handlers.cxx: raft_server::handle_cli_req"]}
{"id": "C43", "title": "replicate_log reports whether the entry was accepted", "statement": "replicate_log returns true exactly when this server is the leader and has appended the entry to its log.", "quantifier": "every server state and payload", "why_tests_cant": "Cannot be excluded for all states by sampling.", "anchors": ["src/raft_server.cxx: raft_server::replicate_log", "include/raft_server.hxx: raft_server::replicate_log"]}
{"id": "C44", "title": "At most one configuration change is in progress", "statement": "A leader never appends a configuration entry while an earlier configuration entry in its log is not yet committed.", "quantifier": "every history of add/remove server requests and responses", "why_tests_cant": "Needs two administrative requests whose confirmations interleave.", "anchors": ["src/raft_server_req_handlers.cxx: raft_server::handle_rm_srv_req, handle_add_srv_req, rm_srv_from_cluster, sync_log_to_new_srv"]}
{"id": "C45", "title": "Only the leader of a term creates entries of that term", "statement": "A server appends an entry stamped with term T that it did not receive from another server only while it is leader in term T.", "quantifier": "every history", "why_tests_cant": "Needs a delayed leave response after losing leadership.", "anchors": ["src/raft_server_resp_handlers.cxx: raft_server::handle_ext_resp", "src/raft_server_req_handlers.cxx: raft_server::rm_srv_from_cluster, handle_cli_req"]}
{"id": "C46", "title": "After a committed configuration change a server's peers are exactly the other members", "statement": "When a configuration entry that still contains this server commits, the set of servers it talks to is exactly the other members of that configuration.", "quantifier": "every previous peer set and every new configuration", "why_tests_cant": "All pairs of configurations.", "anchors": ["src/raft_server.cxx: raft_server::reconfigure, raft_server::commit_in_bg"]}
{"id": "C47", "title": "A lagging follower never makes the leader stop", "statement": "Whatever index a follower asks to continue from, a healthy leader answers with log entries or a snapshot; it does not shut itself down or throw.", "quantifier": "every leader log, snapshot position, reserved-items setting and follower next index", "why_tests_cant": "Needs the follower's next index to equal the leader's start index after a compaction that reserved items.", "anchors": ["src/raft_server.cxx: raft_server::create_append_entries_req, term_for_log, on_snapshot_completed"]}
{"id": "C48", "title": "A leader that created a snapshot can ship it", "statement": "After a leader has successfully created a snapshot and compacted its log, a follower that needs the compacted entries is sent that snapshot.", "quantifier": "every snapshot created while running", "why_tests_cant": "Needs snapshot creation, compaction and a lagging follower in one process lifetime.", "anchors": ["src/raft_server.cxx: raft_server::snapshot_and_compact, on_snapshot_completed, create_sync_snapshot_req", "include/snapshot.hxx: snapshot"]}
{"id": "C49", "title": "Snapshot transfer delivers every byte exactly once and marks the end correctly", "statement": "Sending a snapshot chunk by chunk with any block size delivers consecutive, non-overlapping chunks whose concatenation is the complete snapshot, sets the done flag exactly on the last chunk, and terminates.", "quantifier": "every snapshot size, and every positive block size, for which a chunk with its header fits into one message of less than 2^31 bytes", "why_tests_cant": "All sizes and block sizes, including exact multiples.", "anchors": ["src/raft_server.cxx: raft_server::create_sync_snapshot_req", "src/raft_server_resp_handlers.cxx: raft_server::handle_install_snapshot_resp", "src/raft_server_req_handlers.cxx: raft_server::handle_install_snapshot_req, handle_snapshot_sync_req"]}
{"id": "C50", "title": "Losing the acknowledgement of the last snapshot chunk does not block replication", "statement": "If the response to the last snapshot chunk is lost after the follower installed the snapshot, a later retry makes the leader continue with the log after the snapshot.", "quantifier": "every snapshot and number of retries", "why_tests_cant": "Needs the loss of one particular message; the failure is an endless loop.", "anchors": ["src/raft_server_req_handlers.cxx: raft_server::handle_install_snapshot_req", "src/raft_server_resp_handlers.cxx: raft_server::handle_install_snapshot_resp"]}
{"id": "C51", "title": "Compaction only discards committed entries covered by a snapshot", "statement": "A server only removes from its log entries that its state machine has applied and that a completed (or installed) snapshot covers, and keeps at least the configured number of reserved items.", "quantifier": "every history and parameter setting", "why_tests_cant": "All histories of commits, snapshots and parameters.", "anchors": ["src/raft_server.cxx: raft_server::snapshot_and_compact, on_snapshot_completed"]}
{"id": "C52", "title": "A joining server does not campaign before it is a committed member", "statement": "From accepting an invitation until a configuration containing it commits, a server never starts an election or a pre-vote and never becomes candidate because of a timeout.", "quantifier": "every history during the joining phase", "why_tests_cant": "All event orders.", "anchors": ["src/raft_server.cxx: raft_server::handle_election_timeout, restart_election_timer, commit_in_bg", "src/raft_server_req_handlers.cxx: raft_server::handle_join_cluster_req"]}
{"id": "C53", "title": "Responses carry the server's current term and identity", "statement": "Every response produced by process_req has this server as source, the term the server holds after handling a vote or append-entries request, the matching response type, and (for peer requests) the requester as destination; its term is never below the request's term for vote, append-entries and install-snapshot requests.", "quantifier": "every server state and request", "why_tests_cant": "All states and requests.", "anchors": ["src/raft_server_req_handlers.cxx: raft_server::process_req and handlers"]}
{"id": "C54", "title": "Malformed administrative requests are refused without effect", "statement": "Add-server, remove-server, join, log-sync and install-snapshot requests with the wrong number or type of entries, or undecodable content, are refused and leave the server state unchanged.", "quantifier": "every server state and every malformed request", "why_tests_cant": "Adversarial input space.", "anchors": ["src/raft_server_req_handlers.cxx: handle_add_srv_req, handle_rm_srv_req, handle_join_cluster_req, handle_log_sync_req, handle_install_snapshot_req"]}
{"id": "C55", "title": "A response from a server that was removed meanwhile is ignored", "statement": "A response (or error) that arrives for a peer that has been removed from the configuration has no effect and does not touch freed memory.", "quantifier": "every history with removals and outstanding requests", "why_tests_cant": "Use-after-free on a particular event order.", "anchors": ["src/peer.cxx: peer::send_req, peer::handle_rpc_result", "src/raft_server.cxx: raft_server::reconfigure"]}
{"id": "C56", "title": "A server asked to leave stays unless the leader goes silent or commits its removal", "statement": "After accepting a leave request a server only removes itself when two consecutive election timeouts pass without news from a leader (any append-entries, vote or snapshot request resets the countdown), or when a configuration without it commits.", "quantifier": "every sequence of timeouts and requests", "why_tests_cant": "All event orders.", "anchors": ["src/raft_server.cxx: raft_server::handle_election_timeout, reconfigure", "src/raft_server_req_handlers.cxx: raft_server::handle_leave_cluster_req, process_req"]}
{"id": "C57", "title": "append_entries/add_srv/remove_srv report acceptance by the leader truthfully", "statement": "The asynchronous result is false immediately when no leader is known, equals the local handler's verdict when this server is the leader, and otherwise is true iff the known leader's response says accepted; an RPC failure is reported as an exception; an empty batch is reported as false and sends nothing.", "quantifier": "every server state and request", "why_tests_cant": "All states.", "anchors": ["src/raft_server.cxx: raft_server::send_msg_to_leader, append_entries, add_srv, remove_srv"]}
{"id": "C58", "title": "Restart recovers term, vote, log, membership and pending configuration change", "statement": "After a restart the server is a follower with the saved term and vote, the stored log, the saved configuration as membership, and refuses a further configuration change iff an uncommitted configuration entry is in its log.", "quantifier": "every persistent state", "why_tests_cant": "All persistent states.", "anchors": ["src/raft_server.cxx: raft_server::raft_server"]}
{"id": "C59", "title": "A leader without an uncommitted configuration change accepts a new one", "statement": "A leader whose log holds no uncommitted configuration entry accepts a request to add an unknown server (and invites it) and a request to remove one of its peers (and asks it to leave).", "quantifier": "every leader state reachable through any history and every valid request", "why_tests_cant": "The flag that guards changes is set and cleared at several places during replication, overwriting and committing; every history has to be considered.", "anchors": ["src/raft_server_req_handlers.cxx: raft_server::handle_add_srv_req, handle_rm_srv_req, handle_append_entries", "src/raft_server.cxx: raft_server::commit_in_bg"]}
{"id": "C60", "title": "A server being added gets the whole snapshot", "statement": "When a server is added whose missing entries are no longer in the leader's log, the leader sends it the snapshot to the end, chunk by chunk, and then goes on with the log.", "quantifier": "every snapshot, block size and state of the leader", "why_tests_cant": "Fails only if the snapshot needs more than one block while a server is being added.", "anchors": ["src/raft_server_resp_handlers.cxx: raft_server::handle_ext_resp", "src/raft_server_req_handlers.cxx: raft_server::sync_log_to_new_srv", "src/raft_server.cxx: raft_server::create_sync_snapshot_req"]}
{"id": "C61", "title": "After a snapshot has been made the server can make the next one", "statement": "Once the application has reported that the snapshot it was asked for is complete, or has failed, the server asks for another snapshot when the configured number of further entries has been applied.", "quantifier": "every history of commits, snapshots and installed snapshots, every parameter setting", "why_tests_cant": "Fails only for particular combinations of snapshot distance, reserved entries and an installed snapshot.", "anchors": ["src/raft_server.cxx: raft_server::snapshot_and_compact, on_snapshot_completed", "src/fs_log_store.cxx: fs_log_store::compact"]}
{"id": "C62", "title": "Installing a snapshot survives a crash", "statement": "If the process of a server crashes at any moment while it handles a part of a snapshot, then after a restart it has either what it had before or the snapshot, and if it has not the snapshot it can be sent it again.", "quantifier": "every crash point between two persistent effects of handling a snapshot message, every state", "why_tests_cant": "The crash has to fall between two particular writes.", "anchors": ["src/raft_server_req_handlers.cxx: raft_server::handle_snapshot_sync_req", "src/fs_log_store.cxx: fs_log_store::compact"]}
{"id": "C63", "title": "A rescheduled timer waits for its new delay", "statement": "After scheduler->schedule(task, ms) the action starts at most once and not before ms milliseconds have passed since that call, whatever the timer was doing before (pending, expired, cancelled).", "quantifier": "every interleaving of schedule, cancel, expiry and worker threads", "why_tests_cant": "Fails only when the old wait's completion handler is already queued at the moment of the call.", "anchors": ["src/asio_service.cxx: asio_service::schedule, _timer_handler_", "include/delayed_task.hxx: delayed_task::reset, execute", "src/raft_server.cxx: raft_server::restart_election_timer"]}
{"id": "C64", "title": "A scheduled timer is never lost", "statement": "If a task is scheduled and neither cancelled nor scheduled again afterwards, its action is started by that call once the delay has passed, even if the task was cancelled or had fired before.", "quantifier": "every interleaving of earlier schedules and cancels, expiry and worker threads", "why_tests_cant": "A lost timeout depends on the order of flag updates and handler runs across threads.", "anchors": ["src/asio_service.cxx: asio_service::schedule, cancel_impl, _timer_handler_", "include/delayed_task.hxx: delayed_task::execute, cancel, reset"]}
{"id": "C65", "title": "Applied entries are held by a majority", "statement": "Once any server has passed an entry to its state machine, a majority of the cluster's servers have that entry at that index in their logs, then and at every later time, so the loss of any minority of servers does not lose it.", "quantifier": "all runs of a cluster of any size with fixed membership: all schedules, message losses, duplications, delays, crashes and restarts; all servers, indexes and entries", "why_tests_cant": "The property is about all later states of all schedules; it fails only for schedules in which leaders alternate and old acknowledgements survive a change of leader, which a test has to guess.", "anchors": ["src/raft_server_resp_handlers.cxx: handle_append_entries_resp", "src/raft_server.cxx: become_leader", "src/raft_server.cxx: commit", "src/raft_server.cxx: commit_in_bg"]}
{"id": "C66", "title": "A follower applies only its leader's entries", "statement": "When an append-entries message from a leader makes a server move its commit index, every entry the server may newly apply because of it is the entry that the leader has at that index.", "quantifier": "all reachable states of a cluster, all append-entries messages, however late or duplicated, all batch sizes", "why_tests_cant": "The bad case needs a follower with a stale tail, a leader that sends the follower an earlier part of its log and a commit index beyond that part; it depends on message timing.", "anchors": ["src/raft_server_req_handlers.cxx: handle_append_entries", "src/raft_server.cxx: create_append_entries_req", "src/raft_server.cxx: commit"]}
{"id": "C67", "title": "A leader has every applied entry", "statement": "A server that leads a term not below the term of a server that has applied an entry has that entry in its own log, so changing leaders does not lose applied entries.", "quantifier": "all runs of a cluster with fixed membership, all pairs of servers, all applied entries", "why_tests_cant": "Leader completeness quantifies over all schedules of elections, replication and crashes.", "anchors": ["src/raft_server_req_handlers.cxx: handle_vote_req", "src/raft_server_resp_handlers.cxx: handle_append_entries_resp", "src/raft_server.cxx: become_leader"]}
{"id": "C68", "title": "A server's log keeps what the server has applied", "statement": "An entry that a server has passed to its state machine stays at its index in that server's log; no later message from any leader removes or changes it.", "quantifier": "all runs of a cluster with fixed membership and without snapshots, all servers and applied entries", "why_tests_cant": "It needs every leader that can ever be elected later to agree with the entry, in every schedule.", "anchors": ["src/raft_server_req_handlers.cxx: handle_append_entries", "include/log_store.hxx: write_at"]}
{"id": "C69", "title": "A snapshot stores the membership in force, and making one never stops the server", "statement": "When a server asks the application for a snapshot, the snapshot carries the cluster membership that was in force at the snapshot's last entry, whatever configuration changes are still uncommitted, and taking the snapshot never ends the server's process.", "quantifier": "every server state, every log and chain of configurations, every schedule", "why_tests_cant": "Whether an older configuration is needed depends on when leadership changed relative to which entries had been applied.", "anchors": ["src/raft_server.cxx: raft_server::snapshot_and_compact, become_leader, commit_in_bg", "include/cluster_config.hxx: cluster_config::set_log_idx"]}
{"id": "C70", "title": "The handler of every remote call is called exactly once", "statement": "For every call of send on a TCP rpc client, the handler given to it is called exactly once by the time nothing is pending any more, with a response or with an exception, and never before send returns; no completion order or failure of resolving, connecting, writing or reading can make it run twice or be forgotten.", "quantifier": "every number and timing of calls of send, every completion order, every failure of the asynchronous operations", "why_tests_cant": "All interleavings of completions and failures of four kinds of asynchronous operations of any number of concurrent calls.", "anchors": ["src/asio_service.cxx: asio_rpc_client::send, connected, sent, response_read"]}
{"id": "C71", "title": "A remote call gets the answer to its own request", "statement": "The response handed to the handler of a call of send is the one the remote server produced for that call's request.", "quantifier": "every number and timing of calls of send, every completion order and failure", "why_tests_cant": "Depends on the order in which worker threads run completion handlers.", "anchors": ["src/asio_service.cxx: asio_rpc_client::sent, response_read, rpc_session::read_complete"]}
{"id": "C72", "title": "After a failed remote call the next one connects anew", "statement": "A call of send after a failed call (with nothing pending) resolves and connects before it writes, so that it succeeds if the remote server is up.", "quantifier": "every history of calls and failures", "why_tests_cant": "Failure at any stage, at any time.", "anchors": ["src/asio_service.cxx: asio_rpc_client::send, connected, sent, response_read"]}
{"id": "C73", "title": "A forwarded API call goes to the leader's configured endpoint", "statement": "When append_entries, add_srv or remove_srv is called on a server that is not the leader, the request is sent to the endpoint that the server's current configuration gives for the leader it knows.", "quantifier": "every history of the server, including configuration changes that remove servers and add them with another endpoint", "why_tests_cant": "Depends on the history: a client is created once per server identifier and kept.", "anchors": ["src/raft_server.cxx: raft_server::send_msg_to_leader"]}
{"id": "C74", "title": "An endpoint tcp://host:port leads to a client for that host and port", "statement": "create_client(\"tcp://\" + host + \":\" + port) gives a client for exactly this host and port whenever host is a valid host name and port a decimal number, and gives no client for any other string.", "quantifier": "every string, of any length and content", "why_tests_cant": "The regular expression accepts infinitely many strings; tests sample a few.", "anchors": ["src/asio_service.cxx: asio_service::create_client", "include/peer.hxx: peer::peer", "src/peer.cxx: peer::send_req"]}
{"id": "C75", "title": "The log file has every line once and in order", "statement": "At any time the file of a logger holds the first lines given to the logger, each exactly once and in the order given; the others are still queued or being written.", "quantifier": "every interleaving of threads that log, create loggers and flush, for any number of loggers and lines", "why_tests_cant": "It depends on how threads interleave between queueing, swapping the queue and writing.", "anchors": ["src/asio_service.cxx: fs_based_logger::write_log, fs_based_logger::flush, asio_service_impl::flush_all_loggers"]}
{"id": "C76", "title": "stop() returns, and what was logged before it has been written by then", "statement": "asio_service::stop() always returns, and when it returns every line logged before the call is in its file.", "quantifier": "every interleaving of callers of stop, threads that log, the flush timer and the worker threads", "why_tests_cant": "Lost notifications and half-finished flushes need particular interleavings that tests do not force.", "anchors": ["src/asio_service.cxx: asio_service_impl::stop, asio_service_impl::flush_all_loggers"]}
{"id": "C77", "title": "An exception in one handler does not keep the service from running others", "statement": "However many handlers (timers, completions of remote calls) throw, the service goes on running the handlers that become ready.", "quantifier": "every number of worker threads and every sequence of handlers, each returning or throwing", "why_tests_cant": "It takes as many exceptions as there are processors to see the effect.", "anchors": ["src/asio_service.cxx: asio_service_impl::run, asio_service_impl::worker_entry"]}
{"id": "C78", "title": "What a server does when it wins an election", "statement": "The server that receives the vote completing a majority becomes leader of its term: it stops its election timer, notifies the application once, writes the cluster configuration to its log if no configuration entry exists yet, schedules heartbeats at the configured interval to every other member and sends every other member exactly one append request, for the log from the end it had.", "quantifier": "every state of a server about to win, any number of members, any earlier per-member state (back-off, snapshot transfer, next index)", "why_tests_cant": "It must hold whatever was known about each member before, for clusters of any size.", "anchors": ["src/raft_server.cxx: raft_server::become_leader, enable_hb_for_peer, request_append_entries", "src/raft_server_resp_handlers.cxx: raft_server::handle_voting_resp"]}
{"id": "C79", "title": "With pre-votes no campaign without consent of a majority", "statement": "With pre-votes enabled, a follower of a cluster with other members starts a campaign only if more than half of the members, counting itself, have accepted its pre-vote request for its present term.", "quantifier": "every history of one server: timeouts, requests, answers in any order, late answers, crashes and restarts", "why_tests_cant": "Late and repeated answers can arrive in any order relative to timeouts and new terms.", "anchors": ["src/raft_server.cxx: raft_server::handle_election_timeout, request_prevote", "src/raft_server_resp_handlers.cxx: raft_server::handle_prevote_resp"]}
{"id": "C80", "title": "What a campaign is", "statement": "A server that campaigns increments its term by one, votes for itself, has both on disk before the first vote request leaves, asks every other member exactly once with the index and term of the last entry of its log, keeps its log, commit index and configuration, and waits for another election timeout.", "quantifier": "every state of a follower without pre-votes or a candidate whose election timer fires, any number of members", "why_tests_cant": "It must hold for every log, compacted or not, and every number of members.", "anchors": ["src/raft_server.cxx: raft_server::become_candidate, raft_server::request_vote, term_for_log"]}
{"id": "C81", "title": "A cluster of one server", "statement": "The only member of a cluster becomes leader at its election timeout without asking anybody and commits its whole log; entries a client sends it are committed by the time the client is answered.", "quantifier": "every state of a server without other members, every request", "why_tests_cant": "It must hold for every log and every earlier state.", "anchors": ["src/raft_server.cxx: raft_server::request_prevote, request_vote, request_append_entries, commit", "src/raft_server_req_handlers.cxx: raft_server::handle_cli_req"]}
{"id": "C82", "title": "What a leader does when a follower has taken entries", "statement": "When a follower answers that it has taken entries, the leader remembers how far that follower's log goes; its commit index becomes what a majority now has and never smaller; if that made it grow, every idle member is sent the new commit index with the entries it lacks and every busy member is marked to be told next; otherwise only the answering follower is sent something, and only if it lacks entries or was marked. Nothing else changes. So a follower that answers gets the whole log of the leader through these answers alone, without waiting for heartbeats.", "quantifier": "every state of a leader, every accepting answer, any number of members and any length of log", "why_tests_cant": "It must hold for every set of match indexes, busy flags and log, and for any number of answers until the follower has everything.", "anchors": ["src/raft_server_resp_handlers.cxx: raft_server::handle_append_entries_resp", "src/raft_server.cxx: raft_server::commit, raft_server::request_append_entries"]}
{"id": "C83", "title": "Carrying through the removal of a server", "statement": "After the leader has accepted the request to remove a server: if that server agrees, exactly the configuration without it is appended to the log and offered to every idle member; if it refuses, nothing changes; if it cannot be reached, the request is repeated at growing intervals, and after a bounded number of failures the server is removed all the same, the leader committing alone if there is no other member. Two servers that have both agreed to leave are both gone once everything is applied, and a removal never makes servers apply different entries.", "quantifier": "every state of a server with an outstanding request to leave, any number of failures, any timing of the answer", "why_tests_cant": "The answer can arrive in any role and term, together with other changes, and the number of failures is unbounded.", "anchors": ["src/raft_server_resp_handlers.cxx: raft_server::handle_ext_resp, raft_server::handle_ext_resp_err", "src/raft_server_req_handlers.cxx: raft_server::rm_srv_from_cluster, raft_server::handle_rm_srv_req, raft_server::handle_leave_cluster_req"]}
{"id": "C84", "title": "Elections while the members of the cluster change", "statement": "While servers are added and removed, every term still has at most one leader, and no two servers apply different entries at the same index. A server that becomes leader has the persisted votes of a majority of the members it has at that moment.", "quantifier": "every run of any number of servers with any sequence of additions and removals, any message delays, losses and crashes", "why_tests_cant": "It depends on when each server's committing thread applies a new configuration relative to the votes being counted; a test sees a handful of such interleavings.", "anchors": ["src/raft_server.cxx: raft_server::reconfigure, raft_server::commit_in_bg, raft_server::become_leader", "src/raft_server_resp_handlers.cxx: raft_server::handle_voting_resp"]}
{"id": "C85", "title": "A crash while the log is overwritten or compacted leaves a log that is right", "statement": "If the process stops at any point inside write_at, apply_pack or compact of the file log store, the folder can be opened again and holds the log before or after the operation; at least every entry below the overwritten index, and every entry that compaction keeps, is found under its own index.", "quantifier": "every history, every operation, every point between two file changes, every cache size at the next start", "why_tests_cant": "Requires stopping between two specific file changes in every combination of entry sizes.", "anchors": ["src/fs_log_store.cxx: fs_log_store::write_at, apply_pack, compact, fs_log_store, fill_buffer"]}
{"id": "C86", "title": "A committed entry is applied without waiting for more traffic", "statement": "When an entry has become committed and is in the log, the commit thread is awake or will be woken: once the call that committed it has returned, the thread does not sleep while a committed entry is unapplied, and, given the processor, it applies everything committed in order before it sleeps again.", "quantifier": "every interleaving of the commit thread with threads that append, commit and install snapshots, at the granularity of single reads, writes, lock operations and notifications", "why_tests_cant": "The failing interleaving needs a notification in the few instructions between the thread's test and its wait.", "anchors": ["src/raft_server.cxx: raft_server::commit, raft_server::commit_in_bg"]}
{"id": "C87", "title": "Destroying a server returns, and only after its commit thread has ended", "statement": "The destructor of a server returns in every schedule, and when it returns the commit thread has ended and will not touch the server again.", "quantifier": "every interleaving of the destructor with the commit thread and the message handlers, every position of the commit thread when the destructor begins, with and without spurious wake-ups", "why_tests_cant": "Depends on where the commit thread stands when the destructor notifies it; tests stop idle servers.", "anchors": ["src/raft_server.cxx: raft_server::~raft_server, raft_server::commit_in_bg"]}
{"id": "C88", "title": "The state machine is handed entries in order while other threads work", "statement": "However the commit thread is interleaved with the threads that handle messages, the state machine is handed the committed entries one after the other, each once and under its own index, and after a snapshot has been installed it continues with the entry that follows the snapshot.", "quantifier": "every interleaving of applying entries with appending, committing and installing snapshots, every kind of entry", "why_tests_cant": "Requires a snapshot to be installed between two particular instructions of another thread.", "anchors": ["src/raft_server.cxx: raft_server::commit_in_bg", "src/raft_server_req_handlers.cxx: raft_server::handle_snapshot_sync_req"]}
{"id": "C89", "title": "The threads of a running server never block each other for ever", "statement": "As long as the server is not being destroyed, at every moment at which some thread inside the server has something left to do, one of its threads can go on: there is no deadlock over the server's lock, the lock of its peer set (even if waiting writers keep readers out), the locks of the peers, the lock of the client table and the lock of the log store. The peer set changes only while no other thread reads it.", "quantifier": "any number of threads in any of the public calls, message handlers, timers, snapshot callbacks and the commit thread, every interleaving, every early return", "why_tests_cant": "Deadlocks need a coincidence of several threads at particular lock operations.", "anchors": ["include/pp_util.hxx", "src/raft_server.cxx", "src/raft_server_req_handlers.cxx", "src/raft_server_resp_handlers.cxx: every use of recur_lock, read_lock, write_lock, auto_lock"]}
{"id": "C90", "title": "A server being added gets the committed log before it becomes a member", "statement": "After a server has accepted the invitation the leader sends it the committed entries in packs, each beginning where the server's last answer says its log ends. Whatever the server then has in its log is what the leader has at the same index, whatever it takes for committed is committed, a request that is repeated because its answer was lost does no harm, and after finitely many round trips the leader appends the configuration with the new server.", "quantifier": "every log of the leader and of the new server, every pack size and stop gap, every lost answer, every restart of the new server", "why_tests_cant": "The number of round trips, the logs and the moments at which answers are lost or the server restarts are unbounded.", "anchors": ["src/raft_server_req_handlers.cxx: handle_log_sync_req, sync_log_to_new_srv, handle_join_cluster_req", "src/raft_server_resp_handlers.cxx: handle_ext_resp, handle_ext_resp_err", "src/fs_log_store.cxx: pack, apply_pack"]}
{"id": "C91", "title": "No message brings a server down", "statement": "Whatever arrives over the network, as a request or as the answer to one of its own requests, a server handles it by answering, refusing or ignoring it: it neither ends the process nor reads outside its data because of the type of the message. Requests a server sends are of types the receiver knows, and every answer has the type its sender waits for.", "quantifier": "all states of a server, all requests and answers with any type byte, all byte streams a session can receive", "why_tests_cant": "the type is an unchecked byte from the network, and what it causes depends on the state of the server and on which of the two answer handlers gets it; tests send the messages the library itself produces", "anchors": ["src/raft_server.cxx:27-47 __msg_type_str", "src/raft_server_req_handlers.cxx raft_server::process_req, handle_extended_msg", "src/raft_server_resp_handlers.cxx raft_server::handle_peer_resp, handle_ext_resp", "src/asio_service.cxx rpc_session::read_complete, asio_rpc_client::response_read"]}
{"id": "C92", "title": "The listener serves every connection, request by request", "statement": "From listen on and until stop, the listener keeps accepting connections whatever errors or connections occur. On each connection the requests are handed to the handler given to listen one at a time, in the order in which their bytes arrived however they were cut into pieces, and the handler's answers are written back in the same order. After stop no connection is accepted and no request is handed over any more.", "quantifier": "all interleavings of accept completions, errors, arriving bytes, handler returns, finished or failed writes and calls of listen and stop; any number of connections and requests; any contents of fresh memory", "why_tests_cant": "the order of completions of several connections and of stop is chosen by the network and the thread pool; tests see a few connections in one order", "anchors": ["src/asio_service.cxx:134-307 rpc_session", "src/asio_service.cxx:309-385 asio_rpc_listener", "include/rpc_listener.hxx rpc_listener"]}
{"id": "C93", "title": "While a majority answers, every request a leader accepts is committed, told to the members and applied", "statement": "A leader whose log is committed and which a majority of the members answers takes a client's request, has exactly one request on its way to each of these members, and when the members have answered it, in whatever order and whether or not the others answer, all entries of the request are committed; by then exactly one further request is on its way to each of these members, and when they have answered that too, each has the entries and knows that they are committed, nothing is on its way, and the leader is where it was before the request. So a sequence of any number of requests, one after the other, ends with the old log followed by the entries of all requests, all of it committed. A server that is alone commits at once. What is committed is handed to the state machine, each entry once and in order.", "quantifier": "every number of servers, every majority of them, every order of the answers in both exchanges, every log, term and commit index, every number of requests and of entries per request up to the limit of one message", "why_tests_cant": "a test runs a few requests in one cluster with one order of answers; that the flags deciding what is sent when (busy, pending, next index) never leave a member out or send to it twice must hold for every order and size", "anchors": ["src/raft_server_req_handlers.cxx: handle_cli_req", "src/raft_server_resp_handlers.cxx: handle_append_entries_resp", "src/raft_server.cxx: request_append_entries, commit, create_append_entries_req, commit_in_bg", "src/peer.cxx: handle_rpc_result"]}
{"id": "C94", "title": "An accepted addition of a server is carried through or given up", "statement": "When a leader has accepted the request to add a server, that server ends up in the configuration, or, if it cannot be reached, is given up after a bounded number of attempts; neither a further administrative request nor the loss of the leadership nor a failed attempt loses the addition silently, lets it disturb another change, or lets a late answer do harm.", "quantifier": "every leader state reachable through any history, every further add request, every message of a higher term, every number of failed attempts, every later history before the late answer arrives", "why_tests_cant": "The harm depends on an answer that arrives after an arbitrary further history, and on two administrative changes whose steps interleave.", "anchors": ["src/raft_server_req_handlers.cxx: raft_server::handle_add_srv_req, sync_log_to_new_srv, rm_srv_from_cluster", "src/raft_server_resp_handlers.cxx: raft_server::handle_ext_resp, handle_ext_resp_err", "src/raft_server.cxx: raft_server::become_follower", "src/peer.cxx: peer::send_req, peer::handle_rpc_result"]}
{"id": "C95", "title": "Reads of the log store concurrent with changes answer as the log at some moment of the call", "statement": "Threads may call entry_at, term_at, log_entries and last_entry of the file log store while another thread appends, overwrites, applies a pack or compacts. Every such read answers what the log held at some moment between its call and its return, throws nothing else than range_error, and leaves the store usable.", "quantifier": "every history of the store, every cache size, any number of reading threads, every interleaving of their steps with the steps of the changes", "why_tests_cant": "The wrong answers need a reader between two particular steps of another thread (cache emptied but not yet refilled, bounds read but not yet the cache); a test hits such a window only by luck.", "anchors": ["src/fs_log_store.cxx: entry_at, term_at, log_entries, last_entry, append, write_at, apply_pack, compact, fill_buffer", "include/fs_log_store.hxx: log_store_buffer", "src/raft_server.cxx: commit_in_bg, on_snapshot_completed"]}
{"id": "C96", "title": "Half-written records are recognised at the next start", "statement": "If the process or the machine stops while the file log store is writing, any number of the bytes being written may be in the files. The next start then finds the log before or after the operation, or at least every entry that was not being written, under its own index; it does not present a half-written record as an entry.", "quantifier": "every history, every operation, every number of bytes written to each file, every cache size at the next start", "why_tests_cant": "A crash in the middle of a write cannot be placed by a test, and there are as many points as bytes.", "anchors": ["src/fs_log_store.cxx: fs_log_store (ctor), append, write_at, compact, fill_buffer"]}
{"id": "C97", "title": "A failed file operation leaves the log as it was", "statement": "If a write, truncation or another file operation fails while the file log store appends or compacts (disk full, no permission), the call reports it, and the log is as it was before the call: for the calls that follow and for the next start.", "quantifier": "every history, every entry, every compaction index, every file operation that may fail, every number of bytes that got written, every cache size at the next start", "why_tests_cant": "Needs a file system that fails at one particular call; the unit tests run on a working disk.", "anchors": ["src/fs_log_store.cxx: append, compact", "src/buffer.cxx: operator<<"]}
{"id": "C98", "title": "A server on the file log store is a server on an indexed log, and a restart finds the log it had", "statement": "Run a server with the file-based log store. Whatever requests, responses, timers, API calls, stops, crashes between two calls of the store and restarts happen, the run is one the server could have had with an ideal indexed log that no restart changes: every answer of the store is the one of that log, and after each stop or crash the folder opens and holds exactly the entries the server had. In particular an entry the server said it stored is the entry it later commits.", "quantifier": "all servers, parameters, cache sizes, sequences of events, reads at any point, crash points between store calls and numbers of restarts, from an empty folder", "why_tests_cant": "a test runs a few calls of the store and a few restarts; the agreement must hold after every sequence of events of the server and every crash point", "anchors": ["src/raft_server_req_handlers.cxx: handle_append_entries", "src/fs_log_store.cxx: write_at", "src/fs_log_store.cxx: fs_log_store::fs_log_store", "src/raft_server.cxx: raft_server::raft_server"]}
{"id": "C99", "title": "A cluster whose servers keep their logs in files is a cluster on indexed logs", "statement": "Run every server of a cluster with the file-based log store. Whatever the network, the timers, the clients, and kills and restarts between two store calls do, the cluster behaves as one whose servers keep their logs in an ideal store: two servers that have entries of one term at one index have the same log up to there, and no two servers apply different entries of one term at one index.", "quantifier": "all clusters, parameters without snapshots, message orders, losses, duplications and delays, crashes between store calls, restarts and cache sizes, from empty folders", "why_tests_cant": "a disagreement needs a particular schedule of elections, overwrites and restarts over several servers; tests try a few", "anchors": ["src/fs_log_store.cxx: write_at", "src/raft_server_req_handlers.cxx: handle_append_entries", "src/raft_server.cxx: become_leader", "src/raft_server.cxx: commit_in_bg"]}
{"id": "C100", "title": "Terms and indexes never leave 64 bits", "statement": "In a cluster with fixed membership, every term (of a server, on its disk, of a log entry, in a request or response) is at most the number of events that have happened in the whole cluster, and every log index, commit index, next index and matched index is at most that number plus the number of entries clients and the application have handed in. So while that sum is below 2^64 - 2 no term or index, and none of the sums term + 1, index + 1, index + number of entries + 1 the handlers form, wraps around in the 64-bit integers the code uses. The bound on terms is reached: a server cut off from the others gains a term with every election timeout.", "quantifier": "every cluster, every parameters, every sequence of events, losses, repetitions, delays, crashes and restarts, with and without snapshots, and every message sent or answered in it", "why_tests_cant": "a test would need 2^64 events to see a wrap-around; that no shorter sequence of messages makes a number jump needs an argument over all runs", "anchors": ["include/basic_types.hxx", "src/raft_server.cxx:update_term", "src/raft_server.cxx:become_candidate", "src/raft_server.cxx:create_append_entries_req", "src/raft_server_req_handlers.cxx:handle_append_entries", "src/raft_server_resp_handlers.cxx:handle_append_entries_resp"]}
{"id": "C101", "title": "Sending messages as bytes over connections that break makes no difference to a cluster but loss", "statement": "Run a cluster in which every request is written as bytes to a connection, the receiving session makes requests of whatever bytes reach it before the connection breaks, and every response is written and read as bytes. Whatever such a cluster does, a cluster in which messages are handed over as they are, or lost, can do as well: no message is altered, merged, split or invented on the way, wherever a connection breaks. Of the requests written to a connection the first few arrive, once each and in order, and the session never reads outside its buffers. Every request names the server that sent it, every response the server that gave it and the one that asked.", "quantifier": "Every cluster with fixed membership whose server ids are 32-bit numbers, every schedule, every cut of every connection at any byte, any old contents of the session's buffers, crashes and restarts; runs with fewer than 2^64 - 2 events and entries.", "why_tests_cant": "It compares all runs of two systems; tests see a few messages of a few sizes, with connections that break between messages if at all.", "anchors": ["src/asio_service.cxx: asio_rpc_client::send, rpc_session::start, rpc_session::read_complete, asio_rpc_client::response_read", "include/req_msg.hxx", "include/resp_msg.hxx", "src/raft_server.cxx", "src/raft_server_req_handlers.cxx"]}
{"id": "C102", "title": "A cluster on log files and byte connections behaves as one on indexed logs and messages", "statement": "Run a cluster in which every server keeps its log in the files of the file log store and every message goes as bytes over connections that break anywhere. As long as no server overwrites an entry of its log by one of another length, and no calls reach a store outside its contract, the cluster does only what a cluster on plain indexed logs with messages handed over or lost can do, and after every step, crash and restart every store answers as its server's log. So at most one server leads in a term, logs that share an entry's term at an index agree up to it, and two servers that apply entries of the same term at the same index apply the same entry, read from files and bytes.", "quantifier": "Every cluster with fixed membership, every schedule, every cut of every connection, every crash between two calls and every restart; runs with fewer than 2^64 - 2 events and entries, with stores used within their contract.", "why_tests_cant": "It speaks of all interleavings of messages, broken connections, crashes and file changes together; each layer alone has more cases than tests can visit.", "anchors": ["src/fs_log_store.cxx", "src/asio_service.cxx", "src/raft_server.cxx", "src/raft_server_req_handlers.cxx", "src/raft_server_resp_handlers.cxx"]}
{"id": "C103", "title": "The event listener always knows whether the server leads", "statement": "An application that registers an event listener and takes the server for the leader from a become_leader event to the next become_follower event is right after every request, answer and timeout the server has handled since the process started, and is never told become_leader twice without a become_follower between.", "quantifier": "Every server, every persistent state it starts from, every sequence of events.", "why_tests_cant": "The role changes in many handlers and on many schedules; tests follow the usual ones.", "anchors": ["include/events.hxx: raft_event_listener", "src/raft_server.cxx: become_leader, become_follower", "src/raft_server_req_handlers.cxx: handle_join_cluster_req"]}
{"id": "C104", "title": "Any majority can always elect a leader, whatever has happened before", "statement": "Take any state a cluster with fixed membership can get into through any schedule of timeouts, messages (lost, repeated, late, out of order), client requests, crashes and restarts, and any majority of its servers. The servers of that majority can elect a leader without the others: if they are started where they are down, one of them lets its election timer fire often enough, and their vote messages arrive, then a server whose log is no older than those of the majority becomes leader of a term above every term the majority has seen, its log is kept and only extended, and the rest of the majority follows in that term with their logs unchanged. No state, however the crashes and elections before went, is a dead end for elections. Pre-votes and snapshots are off.", "quantifier": "every cluster of at least one server, every reachable state, every majority, every server of it whose log is no older than the others'", "why_tests_cant": "the claim is about every reachable state: tests start elections from a handful of states, not from every combination of terms, votes, logs, roles and open requests a history can leave behind", "anchors": ["src/raft_server.cxx: handle_election_timeout, become_candidate, request_vote, become_leader", "src/raft_server_req_handlers.cxx: process_req, handle_vote_req", "src/raft_server_resp_handlers.cxx: handle_peer_resp, handle_voting_resp"]}
{"id": "C105", "title": "Any majority can always commit a client's request, whatever has happened before", "statement": "Take any state a cluster with fixed membership can get into through any schedule of timeouts, messages (lost, repeated, late, out of order), client requests, crashes and restarts, any majority of its servers, and any client request. The servers of that majority can serve the request without the others: one of them, whose log is no older than those of the others, becomes leader, accepts the request, adds its entries in order at the end of its log, brings the log of every server of the majority into agreement with its own up to the index it gave the client, and commits up to that index. If its state machine had not been given entries beyond the end of its log, it applies every application entry of the request at the indexes promised. A running server's committing thread gets through every committed entry, configuration entries included. Pre-votes and snapshots are off.", "quantifier": "every cluster of at least one server, every reachable state, every majority, every server of it whose log is no older than the others', every client request with any number of entries", "why_tests_cant": "the claim is about every reachable state: tests replicate from a handful of pairs of logs, not from every combination of diverged logs, terms, open requests and commit indexes a history can leave behind, and repairing a diverged log takes a number of exchanges without bound", "anchors": ["src/raft_server.cxx: request_append_entries, create_append_entries_req, commit, commit_in_bg, reconfigure, is_leader", "src/raft_server_req_handlers.cxx: handle_append_entries, handle_cli_req", "src/raft_server_resp_handlers.cxx: handle_append_entries_resp"]}
{"id": "C106", "title": "No order of messages, timeouts and crashes makes a server end its own process", "statement": "In a cluster with fixed membership that takes no snapshots, nothing that can happen makes a server call system_exit, throw out of a handler or touch a freed object: election and heartbeat timeouts, requests of other servers and of clients, answers however late, failed calls, the committing thread and the API calls replicate_log and append_entries all end normally, whatever messages are lost, delayed or repeated and whichever servers crash and restart in between.", "quantifier": "every cluster of distinct servers, every run of it from its first start (any interleaving of events, any losses, delays and repetitions, crashes at any point and restarts), every server, every event that can happen next", "why_tests_cant": "A server that finds something it takes to be impossible ends its process; whether it is impossible depends on all runs of the whole cluster. The run that breaks the claim needs three terms, five servers and an acknowledgement that is delayed across two elections.", "anchors": ["src/raft_server.cxx: create_append_entries_req, handle_election_timeout, handle_hb_timeout, commit_in_bg, term_for_log", "src/raft_server_resp_handlers.cxx: handle_peer_resp, handle_append_entries_resp", "src/raft_server_req_handlers.cxx: handle_append_entries", "src/peer.cxx: handle_rpc_result"]}
{"id": "C107", "title": "A client's accepted request stays in the log at the index it was given", "statement": "When a leader accepts a client's request its entries are in that leader's stored log at the consecutive indexes that end just before the index in the answer, under the leader's term. From then on no server ever holds or applies another entry of that term at such an index, the server that accepted keeps the entry through crashes and restarts until a leader of a later term replaces it, and what is applied at such an index is the client's entry.", "quantifier": "every cluster of distinct servers with fixed membership and no snapshots, every run of it from its first start (any order of events, losses, delays, repetitions, crashes at any point and restarts), every accepted request and each of its entries, every later state", "why_tests_cant": "The answer speaks about all that can happen to the cluster afterwards: later leaders, lost messages, crashes. Whether an accepted entry may disappear is a question about every continuation of every run.", "anchors": ["src/raft_server_req_handlers.cxx: handle_cli_req, handle_append_entries", "src/raft_server.cxx: append_entries, replicate_log, become_leader", "src/fs_log_store.cxx: append, write_at"]}
{"id": "C108", "title": "An entry that a majority has acknowledged in its leader's term is never lost", "statement": "Once a majority of the servers has answered a leader that they stored its log up to an entry of its own term, every leader of that term or a later one has the same log up to that entry, the servers that acknowledged it keep it for ever through crashes and restarts, every majority has a server that has it, any majority can still elect a leader that commits it, and no server ever applies anything else at an index up to it.", "quantifier": "every cluster of distinct servers with fixed membership and no snapshots, every run of it from its first start (any order of events, losses, delays, repetitions, crashes at any point and restarts), however commit indexes are moved in it, every acknowledged entry, every later state", "why_tests_cant": "It is a statement about all later elections of all runs; an execution that breaks it would need several leaders, lost messages and crashes in an exact order.", "anchors": ["src/raft_server_req_handlers.cxx: handle_append_entries, handle_vote_req", "src/raft_server_resp_handlers.cxx: handle_append_entries_resp, handle_voting_resp", "src/raft_server.cxx: become_leader, request_vote, create_append_entries_req"]}
{"id": "C109", "title": "A cluster does not come to rest without a leader", "statement": "Whatever messages were lost, a cluster whose servers all run either has a leader or has something under way by itself (a running election timer, a call that is not finished) that can still lead to one: it never gets into a state in which no server leads and nothing but a restart will change that.", "quantifier": "every cluster of distinct servers with fixed membership and no snapshots, every run of it from its first start (any order of events, losses, delays, repetitions, crashes and restarts), every reachable state, every continuation", "why_tests_cant": "It says that no reachable state is a dead end; a test sees one schedule and cannot tell a long wait from an endless one.", "anchors": ["src/raft_server.cxx: handle_election_timeout, request_prevote, restart_election_timer", "src/raft_server_resp_handlers.cxx: handle_prevote_resp, handle_peer_resp", "src/raft_server_resp_handlers.cxx: handle_ext_resp, handle_ext_resp_err"]}
{"id": "C110", "title": "Servers with pre-votes that run and reach each other can elect a leader", "statement": "Whatever has happened before, once all servers of a cluster run and their messages arrive, some order of timeouts, messages and restarts leads to a leader, also when the servers use pre-votes.", "quantifier": "every cluster of distinct servers with fixed membership and no snapshots that use pre-votes, every reachable state, every continuation", "why_tests_cant": "It speaks of all continuations of all reachable states; a state from which no continuation elects a leader needs several campaigns, losses and crashes in an exact order to be seen, and a test cannot show that nothing helps.", "anchors": ["src/raft_server_req_handlers.cxx: handle_prevote_req, process_req", "src/raft_server.cxx: request_prevote, handle_election_timeout", "src/raft_server_resp_handlers.cxx: handle_prevote_resp, handle_ext_resp"]}
{"id": "C111", "title": "A server with pre-votes that is cut off keeps its term and disturbs nobody", "statement": "A follower that uses pre-votes and that gets neither requests nor answers from other servers, however often its timers fire, its calls fail, its application and clients call it and it crashes and restarts, stays a follower in its term, changes nothing on its disk and sends nothing but pre-vote requests for that term.", "quantifier": "every follower with pre-votes and at least one peer, every sequence of timeouts, failed calls, client and application calls, crash points inside events, and restarts", "why_tests_cant": "A test runs a few timeouts; the claim is about any number of them, in any order with failures, calls, crashes in the middle of an event and restarts.", "anchors": ["src/raft_server.cxx: handle_election_timeout, request_prevote, send_msg_to_leader", "src/raft_server_resp_handlers.cxx: handle_ext_resp_err", "src/peer.cxx: handle_rpc_result"]}
