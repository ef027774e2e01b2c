# Formal model of datatechnology/cornerstone in Rocq

This directory holds a machine-checked model of the cornerstone Raft library
(`/repo`, C++) and theorems about it.  `properties.jsonl` lists the properties
in English, `MANIFEST.json` maps each property to theorem names,
`seeded/LOG.jsonl` records the wrong programs the theorems were tested against.

## Approach

* The model is written in Gallina as total, computable functions, one per C++
  function, each with a comment citing file and lines.  Exceptions, undefined
  behaviour and process exit are distinct outcomes of the model, never defaults.
* Theorems named after a property (`Cxx_...`) are in `P_*.v` files, next to the
  small vocabulary their statements use, an `Example` showing that the
  hypotheses are met by a concrete case, and `Print Assumptions`.
* Where the code does not have a property, the property is *refuted*: a theorem
  `..._refuted` exhibits a concrete execution of the model violating it, and a
  `..._partial` theorem states what does hold, with the missing part spelt out.

## Plan per property

| id | title | what is modelled / how it is proved |
|----|-------|--------------------------------------|
| C01 | Checked buffer operations stay inside the block and fail atomically | Buffer.v models the raw block (header bytes + data bytes, bit 31 flag, 16/32-bit position). Refinement to an abstract (size,pos,bytes) buffer; invariant by induction on operation sequences. |
| C02 | Values written to a buffer are read back unchanged | Induction over a typed value list, from the refinement of C01. |
| C03 | Integers are stored little-endian two's complement | Explicit byte-level statement with div/mod arithmetic, independent of the encoder. |
| C04 | alloc accepts exactly the sizes below 2^31 and reports them faithfully | Case split at 2^15 on the raw block, flag stability for every reachable position. |
| C05 | buffer::get(dst) copies the requested bytes or rejects the request | Expected false: buffer::get has no bounds check. `_refuted` witness + `_partial` for the in-bounds case. |
| C06 | Strings survive a put/get round trip | True for non-empty strings (`_partial`), false for the empty string (`_refuted`: get_str yields nil and does not advance). |
| C07 | Buffer-to-buffer put and copy transfer exactly the unread bytes | Refinement lemma on the raw block. |
| C08 | Server and cluster configurations survive serialization | Codec.v builds serialize/deserialize on the buffer operations; induction on the server list; independence from uninitialised memory; `_refuted` for empty endpoints. |
| C09 | Snapshots and snapshot chunks survive serialization | As C08. |
| C10 | Log entries survive serialization | As C08. |
| C11 | RPC messages arrive as they were sent | Rpc.v: client encoder and session decoder as separate functions; induction on entries. |
| C12 | Every log entry the API accepts can be delivered to followers | Expected false (`_refuted`, 16 MiB limit in the session), and the exact limit as theorem. |
| C13 | The RPC session handles arbitrary bytes without undefined behaviour | Expected false (`_refuted`): a length field larger than the remaining data makes buffer::get over-read. `_partial`: exact condition. |
| C14 | The file log store behaves like an indexed log | FsLogStore.v: three files as byte lists with one joint stream position and a sticky fail bit; refinement to abstract log by invariant over operation sequences. Guarded where C16 shows divergence. |
| C15 | Reopening the store after a clean close yields the same log | Part of the same invariant: decoding the files yields the abstract log. |
| C16 | Overwriting the last entry with a shorter one is durable | Expected false (`_refuted`): the data file is not truncated. `_partial` guarded theorem. |
| C17 | The in-memory cache never changes answers | Expected false (`_refuted`): write_at below the cached window. `_partial` guarded theorem. |
| C18 | log_entries(start, end) returns exactly the entries in [start, end) | Expected false for bounded caches (`_refuted`); true when everything is cached. |
| C19 | pack/apply_pack transfer log ranges exactly | Byte-level proof through the invariant of C14. |
| C20 | Compaction removes exactly the prefix | Byte-level proof through the invariant of C14. |
| C21 | A crash during append never loses previously appended entries | Durable writes of append as a list, crash = prefix. Expected false (`_refuted`): index written before data. |
| C22 | Heartbeat interval stays between the configured interval and the maximum | Induction over RPC outcomes. |
| C23 | An asynchronous result's callback runs exactly once, with the result | Small-step interleaving model of the two threads; exactly-once expected false (`_refuted`), at-least-once and right value proved for all schedules. |
| C24 | A cancelled timer does not fire | Small-step model of timer/cancel; expected false (`_refuted`); what does hold is proved. |
| C25 | At most one append-entries/snapshot RPC is outstanding per peer | Trace invariant of the node model; expected false across re-election (`_refuted`); proved between elections. |
| C26 | A server's term never goes backwards | Node model (Raft.v), relation preserved by every handler; false through join_cluster (`_refuted`), proved for all other events and crash prefixes. |
| C27 | A server votes for at most one candidate per term, even across crashes | As C26: history invariant over action traces and crash prefixes. |
| C28 | A vote is granted exactly to candidates with an up-to-date log in the current term | Functional specification of the handler; false for the fully compacted log (`_refuted`). |
| C29 | Append-entries accepts exactly consistent requests and installs exactly the leader's entries | Functional specification by induction on the entry list. |
| C30 | Duplicated or delayed append-entries requests do no harm | Consequence lemmas of C29's induction. |
| C31 | The commit index never goes backwards | Relation preserved by every handler. |
| C32 | Committed entries are applied in order, once, without gaps | Invariant over action traces. |
| C33 | A leader's commit index is backed by a majority of reported match indexes | Sorting lemma: characterisation of the selected element as the largest majority-reached index. |
| C34 | Every pre-committed entry that is removed from the log is rolled back | Expected false (`_refuted`); what holds: the first conflicting entry is rolled back. |
| C35 | At most one leader per term | Cluster.v: network of servers, monotone message history, crash at any action, snapshots included; invariant proof with quorum intersection. |
| C36 | Logs that agree on an entry's index and term agree on everything before it | Cluster invariant with one ghost log per term; false once snapshots are installed (`_refuted`). |
| C37 | A leader never overwrites or deletes entries of its own log | Node-level step lemma. |
| C38 | All servers apply the same entry at each index | False (`_refuted`, executable cluster runs); true for runs that move commit indexes by the rules of CommitSpec.v (Leader Completeness, by induction over terms). |
| C39 | Pre-vote requests have no side effects on the server asked | Functional specification. |
| C40 | A server without a leader always has an election timer running | Node invariant; false with pre-vote (`_refuted`), proved without. |
| C41 | A leader cut off from the majority stops accepting client requests | Expected false (`_refuted`): the cached elapsed time is never refreshed. |
| C42 | Client requests: the leader appends them in order with its term, others refuse without effect | Functional specification by induction on entries. |
| C43 | replicate_log reports whether the entry was accepted | Expected false (`_refuted`): it always returns false; exact behaviour proved. |
| C44 | At most one configuration change is in progress | Expected false (`_refuted`). |
| C45 | Only the leader of a term creates entries of that term | Expected false (`_refuted`); proved for executions without administrative requests. |
| C46 | After a committed configuration change a server's peers are exactly the other members | Functional specification of reconfigure (set equality). |
| C47 | A lagging follower never makes the leader stop | Expected false (`_refuted`). |
| C48 | A leader that created a snapshot can ship it | Expected false (`_refuted`): snapshot created with size 0. |
| C49 | Snapshot transfer delivers every byte exactly once and marks the end correctly | Induction over the chunk sequence with the sender/receiver handlers composed. |
| C50 | Losing the acknowledgement of the last snapshot chunk does not block replication | Expected false (`_refuted`): declined forever; induction over number of retries. |
| C51 | Compaction only discards committed entries covered by a snapshot | Node invariant/functional specification. |
| C52 | A joining server does not campaign before it is a committed member | Functional specification + invariant. |
| C53 | Responses carry the server's current term and identity | Handler postconditions. |
| C54 | Malformed administrative requests are refused without effect | Per-handler theorem; false for join (`_refuted`). |
| C55 | A response from a server that was removed meanwhile is ignored | Expected false (`_refuted`): raw this pointer in the RPC callback. |
| C56 | A server asked to leave stays unless the leader goes silent or commits its removal | Functional specification over event sequences. |
| C57 | append_entries/add_srv/remove_srv report acceptance by the leader truthfully | Functional specification of the API calls; the result of a forwarded call by composing the client model (Client.v) with the asynchronous result model (Async.v). |
| C58 | Restart recovers term, vote, log, membership and pending configuration change | Functional specification of the constructor. |
| C59 | A leader without an uncommitted configuration change accepts a new one | Functional specification of the add/remove handlers; `_refuted` by a life of one server. |
| C60 | A server being added gets the whole snapshot | Functional specification of the answer to a chunk while a server is being added. |
| C61 | After a snapshot has been made the server can make the next one | Functional specification of on_snapshot_completed; `_refuted` by a life of one server. |
| C62 | Installing a snapshot survives a crash | Case analysis over the crash points of installing a snapshot. |
| C63 | A rescheduled timer waits for its new delay | Sched.v: one task, its owner and the io threads interleave arbitrarily; invariant over histories. |
| C64 | A scheduled timer is never lost | As C63. |
| C65 | Applied entries are held by a majority | Cluster invariants with ghost acknowledgements (ClusterSafe.v, SafeRun.v, MatchWalk.v, MatchRun.v), quorum counting. |
| C66 | A follower applies only its leader's entries | As C65. |
| C67 | A leader has every applied entry | As C65 (Leader Completeness). |
| C68 | A server's log keeps what the server has applied | As C65. |
| C69 | A snapshot stores the membership in force, and making one never stops the server | Functional specification of snapshot_and_compact plus an invariant over lives for the order of configurations. |
| C70 | The handler of every remote call is called exactly once | Client.v: the client as a state machine whose pending operations complete in any order, with any outcome; permutation invariant. |
| C71 | A remote call gets the answer to its own request | As C70, with the connection's two queues; invariant for calls one at a time, `_refuted` by a schedule otherwise. |
| C72 | After a failed remote call the next one connects anew | As C70. |
| C73 | A forwarded API call goes to the leader's configured endpoint | The client cache is part of the server state in Raft.v; invariant over runs, `_refuted` by a life. |
| C74 | An endpoint tcp://host:port leads to a client for that host and port | Endpoint.v: the regular expression as a syntax tree and a matcher that tries the alternatives in the order of the specification; soundness and completeness of the matcher, then the language of the expression. |
| C75 | The log file has every line once and in order | Service.v: queues, files, the flush handler and stop as interleaving steps; invariant: file, lines being written and queue together are the lines given. |
| C76 | stop() returns, and what was logged before it has been written by then | As C75; `_refuted` by schedules; invariants from the moment the call of stop wins the exchange. |
| C77 | An exception in one handler does not keep the service from running others | Service.v: pool of threads that end when a handler throws; induction over the handlers. |
| C78 | What a server does when it wins an election | P_Elect.v: exact effect of the vote response that completes a majority, by visiting the peers one by one (each_peer, serve_all). |
| C79 | With pre-votes no campaign without consent of a majority | P_Elect.v: relation kept by every other handler, then a tally of accepting answers as invariant over lives; `_refuted` by a late answer. |
| C80 | What a campaign is | P_Elect.v: exact effect of the election timeout. |
| C81 | A cluster of one server | P_Elect.v: exact effect of the election timeout and of a client request without peers. |
| C82 | What a leader does when a follower has taken entries | P_Ack.v: exact effect of an accepting answer on a leader, by stepping through the handler and the loop over the members; catching up by induction on the entries the follower lacks. |
| C83 | Carrying through the removal of a server | P_Remove.v: exact effect of the answer to the request to leave and of its failure; number of failures by induction on the distance of the interval from its maximum; `_refuted` by runs of three and four servers. |
| C84 | Elections while the members of the cluster change | Member.v, MemberElect.v, P_Member.v: runs of a cluster whose servers add and remove members; invariant: the votes a candidate counts are on the disks of different servers; then counting. `_refuted` by one removal from four servers without any failure. |
| C85 | A crash while the log is overwritten or compacted leaves a log that is right | FsLogCrash.v: the three files go from their old to their new content one change after the other, a crash leaves any stage; the bytes at each stage are cut into entries (any nine bytes are some entry) and opened by the theorem about opening. Expected false in general (`_refuted`). |
| C86 | A committed entry is applied without waiting for more traffic | Committer.v: the commit thread, a handler and the destructor taken apart into single reads, writes, lock operations and notifications; catching up by induction on what is unapplied; the condition under which sleeping means nothing is unapplied as an invariant. Expected false in general: commit notifies without commit_lock_ (`_refuted`). |
| C87 | Destroying a server returns, and only after its commit thread has ended | Committer.v: lock ownership as an invariant; a measure for the case in which the notification arrives; an invariant that keeps the destructor waiting for all other cases. Expected false (`_refuted`). |
| C88 | The state machine is handed entries in order while other threads work | Committer.v: every hand-over is recorded; invariant relating the record to sm_commit_index_ and the commit thread's position, if installing and applying do not overlap; histories in which they do (`_refuted`). |
| C89 | The threads of a running server never block each other for ever | Locks.v: the lock skeleton of every function; a checker of the lock discipline, proved sound for all traces of a skeleton and run on the entry points; progress for any number of threads from the discipline and mutual exclusion. |
| C90 | A server being added gets the committed log before it becomes a member | P_Join.v: one round trip of leader and new server computed exactly, then induction on the number of committed entries the server lacks; universal counterexamples for a server whose log was not empty and for one that is restarted in between. Expected partial. |
| C91 | No message brings a server down | Intake.v puts the log calls that index the table of message names in front of the handlers of Raft.v. False: universal refutations for unknown requests, 45 bytes on any connection, unexpected answers and append or snapshot requests of a leader's own term. Proved: for the twenty named types the receiving functions equal the handlers; answers have the matching type; everything a server sends is known to the receiver and its answer is waited for (walk over all events); vote, pre-vote and leave requests are always answered. |
| C92 | The listener serves every connection, request by request | Listener.v: the accept loops, the acceptor and the sessions as interleaving steps, sessions reading with Rpc.session_step. Invariants by induction over executions: per connection the requests handed over are a prefix of those sent, answers follow in order, at most one is open; a loop exists while open; no pending accept once closed. False for stop: universal refutations. |
| C93 | While a majority answers, every request a leader accepts is committed, told to the members and applied | compose the handlers of leader and members into exchanges (Progress.v: the leader's actions are searched for the one request to a member, the member's handler is run on it, its answer is given to the leader); invariant over the answers of the first exchange with two stages (nothing committed and nothing sent / everything committed, those that answered told, the others marked), over the second exchange, then induction over the requests |
| C94 | An accepted addition of a server is carried through or given up | An invariant walk over all handlers shows that numbers of peer objects are never used again, so an object that has been dropped stays dropped through every history (`dead_lost`). From it: a second add request replaces the object of the first, and a message of a higher term drops it, so that the outstanding answer uses freed memory whenever it comes. The failure branch by induction on the distance of the interval to its maximum (bounded number of attempts, then given up with nothing else changed except the guard of configuration changes). Two changes: the next configuration is always built on the applied one. `P_Change.v`. |
| C95 | Reads of the log store concurrent with changes answer as the log at some moment of the call | LogShare.v splits the four reads into the stretches between lock operations (C95_alone: for every store the parts run without interruption are the sequential calls) and lists the values the cache takes during a change. Invariant: whatever the cache shows is an entry of the log before or after the change under way. C95_linear_partial: linearizability for all interleavings without an unlucky step; each kind of unlucky step is refuted by a universal theorem. |
| C96 | Half-written records are recognised at the next start | FsLogTorn.v gives the folder in which the first i bytes of the index file and the first j bytes of the data file are those of after the operation. C96_append decides every (i, j) of append for every history: before, the last entry grown, cannot be opened, the new entry cut short. C21_crash_points: before or after if and only if all or nothing was written. write_at: entries below stay. The start index: bytes of the new and the old index mixed. |
| C97 | A failed file operation leaves the log as it was | LogFault.v gives the outcome of append and of compact for every file operation that can fail, including the code that restores the files. Theorems are for every history of the store; what the next start finds follows from C96_append. |
| C98 | A server on the file log store is a server on an indexed log, and a restart finds the log it had | `Stack`: lives of the server of `Raft` with the files of `FsLogStore` run along; the log after a start is what the opened store answers. Proved: forward simulation to the lives of `NodeSpec` (every guarded step of `RaftTrace` does to the log what the store call does), under the conditions of C14. Refuted without them: a follower whose last entry is replaced by a shorter one of another term starts again with an entry nobody sent, and commits it. |
| C99 | A cluster whose servers keep their logs in files is a cluster on indexed logs | `StackCluster`: the network of `Cluster`, each server with its own files run along as in C98; a server that starts takes the log its store answers with. Proved: a run of it is a run of `Cluster` under the conditions of C14 on every store (C98's simulation per server), so the theorems of C36 and C38 carry over. Refuted without them: a concrete schedule in which two servers apply different entries of the same term. |
| C100 | Terms and indexes never leave 64 bits | Bounds.v measures a run by its events and the entries handed in; BoundsWalk.v proves for every handler, by a Hoare logic over the monad of Raft.v, that state, actions and answers stay within the bounds at every action; P_Bounds.v: induction over runs of Cluster.v. |
| C101 | Sending messages as bytes over connections that break makes no difference to a cluster but loss | Wire.v replaces the message delivery of Cluster.v by encoding, a connection cut at any byte, the session of Rpc.v and decoding. WireFacts.v: what a session makes of a cut stream of requests, by induction over the requests. P_Wire.v: refinement to Cluster.v by induction over runs; C100 shows that every number in a message fits its field, BoundsWalk.v that ids in messages are ids of servers. |
| C102 | A cluster on log files and byte connections behaves as one on indexed logs and messages | Full.v joins StackCluster.v and Wire.v into one transition system. P_Full.v: refinement to StackCluster.v by induction over runs, using the refinement of C101 at every step on the world that C99 shows reachable; then C99, C35, C36 and C38 give the consequences. The refutation of C99 is carried over by showing that small runs on files are runs in bytes. |
| C103 | The event listener always knows whether the server leads | The two calls are actions of Raft.v. Events.v folds them to what a listener believes. P_Events.v: the belief is the role, by induction over events with the invariant that a leader has counted its votes. |
| C104 | Any majority can always elect a leader, whatever has happened before | P_Recover.v: from the invariant of reachable worlds (ClusterRun.v), build the continuation: start the servers of the majority, restart the chosen server, repeat its election timeout until its term is above all others, deliver its vote requests, then the votes one by one until it has a majority (C80, C28, a lemma on a vote that is not the last, C78; C81 for a single server). |
| C105 | Any majority can always commit a client's request, whatever has happened before | P_Avail.v: continue the run built for C104: the new leader takes the request, then for every member of the majority exchange append requests and answers: while the member refuses, the index the leader tries falls; once it accepts, every exchange carries at least one entry (both by well-founded induction, from C29, C82, C83), until the member has the whole log; after the last member a majority has it and the commit index moves (C82). Log matching (C36) turns agreement on the last entry into agreement on the whole log. Then the committing thread is run to the commit index; configuration entries are read back and change nothing, since membership is fixed. |
| C106 | No order of messages, timeouts and crashes makes a server end its own process | Alive.v: a calculus of computations that end normally, and one walk through every handler that keeps the invariant that a leader takes no follower to have more entries than it has. P_Down.v: the invariant holds in every run that obeys `timely` (CommitSpec.obeys), by induction over runs, using election safety (C35), the log of a term's leader (ClusterLog) and what an acknowledgement says (MatchRun). Refuted in general: a late acknowledgement (witness with five servers) lets a leader take a follower to be ahead of it, and then any heartbeat ends its process (for every such state). |
| C107 | A client's accepted request stays in the log at the index it was given | P_Accept.v: [accepts] is the step of the cluster that answers the request; [place] the index of an entry. The logs of the terms only grow along a run (one walk over the steps of the cluster), so all entries of one term at one index are equal; an induction over the run shows that the accepting server's entry goes only by an append request of a later term that covers its index. The last part of the claim is false: the leader answers before any other server has the entry. C107_can_be_lost_refuted proves for every cluster that while a majority lacks the entry this majority can elect a leader and commit another entry at its index, and C107_accepted_refuted gives a run in which the other entry is applied. |
| C108 | An entry that a majority has acknowledged in its leader's term is never lost | Keep.v: the part of the invariant of SafeRun.v that does not speak of commit indexes holds in all runs, and the logs of the terms only grow. P_Keep.v: Leader Completeness and its consequences for every run; C105 gives that any majority can commit the entry. The last part is proved for runs in which commit indexes are moved by the rules of CommitSpec.v and refuted in general on the schedule of Figure 8. |
| C109 | A cluster does not come to rest without a leader | P_Rest.v: the specification says which calls are under way (made and without outcome), which events can happen by themselves, and what a state at rest is; a state at rest stays as it is under all of them for ever. Without pre-votes every running server that does not lead has its timer running (C40 along the runs of Cluster.v). With pre-votes a run of three servers ends at rest, by computation; every cluster of two or more such servers has such a run, by induction over the servers and their calls. |
| C110 | Servers with pre-votes that run and reach each other can elect a leader | P_Stuck.v: the continuations of a state allow timers at any time, any delivery, answer or failure of the calls under way, clients, the application's calls, crashes in the middle of events and restarts. A state in which no server has the support of a majority (in particular one in which of any two servers each has a smaller term or an older log than the other) is shown to stay so for ever by an invariant over those continuations; a run of three servers reaches such a state, by computation. For servers without pre-votes see C104. P_Consent.v: the part that holds, by constructing the run: the server that has both the newest log and the greatest term of a majority collects the pre-votes one by one, after the others' timers have fired (a server in defensive mode consents only while it asks itself), and then leads as in C104. |
| C111 | A server with pre-votes that is cut off keeps its term and disturbs nobody | P_CutOff.v: an invariant of such a follower, kept by each event that can happen at a server that is cut off, with the disk held constant through crashes inside events and restarts. |

## Results per property

`proved`: the statement of properties.jsonl in full.  `partial`: the statement is
refuted for the code as it is, or proved with a restriction; what is missing is said
in the last column.

| id | status | theorems | note |
|----|--------|----------|------|
| C01 | proved | `C01_buffer_safe`, `C01_buffer_refines`, `C01_header_inside` | Raw memory block with both header layouts, all operation sequences, arbitrary uninitialised memory. |
| C02 | proved | `C02_typed_round_trip` | Every sequence of writes that fits, read back with the matching reads. |
| C03 | proved | `C03_put_ulong_layout`, `C03_put_int_layout`, `C03_get_ulong`, `C03_get_int` | Every value and every four or eight bytes. |
| C04 | proved | `C04_alloc`, `C04_kind_stable`, `C04_set_pos` | Every size; both block kinds. |
| C05 | partial | `C05_get_buf_refuted`, `C05_get_buf_partial` | The property is false of the code (refuted): get(bufptr&) has no bounds check. Partial: exact condition for the over-read and exact effect otherwise. |
| C06 | partial | `C06_empty_string_refuted`, `C06_empty_string_always_lost`, `C06_string_round_trip_partial` | False for the empty string (refuted, and shown for every block); proved for every non-empty NUL-free string. |
| C07 | proved | `C07_put_buffer`, `C07_copy` | Every pair of buffers. |
| C08 | partial | `C08_config_round_trip_partial`, `C08_srv_round_trip_partial`, `C08_too_large_throws`, `C08_empty_endpoint_refuted`, `C08_nul_in_endpoint_refuted` | Proved for every configuration with non-empty NUL-free endpoints, read from any buffer at any position; refuted for an empty endpoint (undefined behaviour) and for an endpoint with a NUL byte. |
| C09 | proved | `C09_snapshot_round_trip`, `C09_sync_req_round_trip` | Every snapshot descriptor and chunk within the size limits of a buffer. |
| C10 | proved | `C10_entry_round_trip` | Every entry, whatever the position of its buffer. |
| C11 | proved | `C11_request_bytes`, `C11_requests_arrive`, `C11_response_arrives` | Every request and response, entry payloads within the message limit. |
| C12 | partial | `C12_big_entry_refuted`, `C12_delivery_limit_partial` | False (refuted): more than 16 MiB of log data closes the session. Partial: the exact limit. |
| C13 | partial | `C13_overread_refuted`, `C13_session_safe_partial` | False (refuted). Partial: exact characterisation of the streams that lead to undefined behaviour. |
| C14 | partial | `C14_indexed_log_partial`, `C14_limited_cache_partial`, `C14_in_memory_partial`, `C14_refuted` | Refinement to an indexed log for every operation sequence meeting ops_ok (the last entry is not shortened in place before a reload, no write below the cached window, sizes within int limits); arbitrary overwrites while nothing is reloaded from the files. The unconditional statement is false (refuted). |
| C15 | partial | `C15_reopen_partial`, `C15_stale_tail_refuted`, `C15_long_log_refuted` | Proved for every history meeting ops_ok and every pair of cache sizes; refuted after a shortening overwrite and, for all logs of 2^28 entries or more, with the default cache. |
| C16 | partial | `C16_overwrite_partial`, `C16_shorter_last_refuted` | Proved when the overwritten tail does not shrink in bytes unless the entry count shrinks; the property itself is false (refuted). |
| C17 | partial | `C17_cache_size_partial`, `C17_write_below_cache_refuted`, `C17_zero_cache_refuted` | Any two non-zero cache sizes give the same answers for all histories meeting ops_ok in both; refuted for a write below the cached window and for size 0. |
| C18 | partial | `C18_range_partial`, `C18_range_entries`, `C18_before_cache_refuted` | Exact for every range whose end is not below the cached window; refuted otherwise. |
| C19 | partial | `C19_pack_apply_partial`, `C19_stale_tail_refuted` | Proved for all pairs of histories and ranges within the stated size limits; refuted when the pack replaces a longer tail with the same number of entries. |
| C20 | partial | `C20_compact_partial`, `C20_stale_tail_refuted` | Proved for all histories meeting ops_ok; refuted after a shortening overwrite. |
| C21 | partial | `C21_before_and_after_partial`, `C21_append_torn`, `C21_append_data_first`, `C21_crash_points`, `C21_lost_refuted` | False for every history: C21_crash_points decides every number of bytes written to the two files: the log before or after is found if and only if all or nothing was written (or nothing of the offset while the log was empty); otherwise the folder can never be opened again (C21_lost_refuted: such a point exists for every history and entry), the old last entry swallows the new bytes, or the new entry is cut short. Between whole file changes: before and after for every operation (C21_before_and_after_partial), C21_append_torn, C21_append_data_first. |
| C22 | partial | `C22_interval_bounds`, `C22_growth_partial`, `C22_success`, `C22_failure`, `C22_growth_refuted` | Bounds and reset proved for every server history. Growth: one back-off per failed request; a failed join/sync/leave request counts twice (peer::handle_rpc_result and handle_ext_resp_err both call slow_down_hb), so the claim as stated is refuted for those and the partial theorem gives the factor two. |
| C23 | partial | `C23_twice_refuted`, `C23_get_refuted`, `C23_handler_constructor_refuted`, `C23_handler_partial`, `C23_once_partial`, `C23_get_partial`, `C23_given_result` | In every interleaving the handler is only called with the result, at least once and at most once per thread; get without a spurious wake-up gives the result; no wake-up is lost. Exactly once is refuted (set_result between storing the handler and testing), as is get under a spurious wake-up. Model is sequentially consistent. |
| C24 | partial | `C24_race_refuted`, `C24_cancel_partial`, `C24_leader_exits_refuted` | After cancel returned only workers that had already read the flag can start the action (each once). That case is refuted: the action can start after cancel, and a new leader whose election timeout was past the check ends its process. |
| C25 | partial | `C25_one_outstanding_partial`, `C25_one_outstanding_refuted` | At most one outstanding request per peer object in every run in which nothing is outstanding at the moment the server becomes leader. Refuted without that: become_leader calls set_free on every peer, so a re-elected leader sends a second request while the first is pending. |
| C26 | partial | `C26_term_monotone_partial`, `C26_term_monotone_refuted` | Proved for every life, crash and restart without join requests; refuted with them: join_cluster_req sets the term from the request, also to a lower one. |
| C27 | partial | `C27_one_vote_per_term_partial`, `C27_vote_kept_across_restart_partial`, `C27_vote_saved_before_answer`, `C27_candidacy_saved_before_request`, `C27_one_vote_per_term_refuted` | Proved for every life without join requests (and server ids other than -1); refuted with them: joining resets the vote. The vote is saved before the answer or the request leaves, without these restrictions. |
| C28 | partial | `C28_vote_partial`, `C28_vote_refuted` | Exact condition (iff) for an accepted vote response when the log end is still in the log; refuted when the log is fully compacted (last term taken as 0). |
| C29 | partial | `C29_append_partial`, `C29_append_refuted` | Exact response, log, commit index and actions for every append-entries request in reach of the log; refuted (exception) for index 0 on a compacted log. |
| C30 | partial | `C30_duplicate_partial`, `C30_old_term_partial`, `C30_delayed_refuted` | Duplicates and old-term requests leave the log unchanged; refuted: a delayed request whose previous index was compacted makes the server exit. |
| C31 | partial | `C31_commit_index_partial`, `C31_applied_index`, `C31_commit_index_refuted` | Applied index: every event except join. Commit index: every event except join and install-snapshot; refuted for the latter (a snapshot older than the commit index lowers it). |
| C32 | proved | `C32_apply_one`, `C32_in_order`, `C32_no_gaps` | Exact effect of each committer iteration; strictly increasing over whole lives with crashes and restarts; no gaps while running. |
| C33 | proved | `C33_majority` | The new commit index is the maximum of the old one and the largest index a strict majority reached, for every accepted response. |
| C34 | partial | `C34_rollback_partial`, `C34_rollback_refuted` | Exact roll-back/pre-commit calls of one append-entries request; refuted: only the first conflicting entry is rolled back. |
| C35 | proved | `C35_one_leader_per_term`, `C35_leader_led`, `C35_one_leader_at_a_time` | Fixed membership; snapshots, crashes, restarts, lost, duplicated and reordered messages included. Hypothesis: the initial configuration of every server is the same and has no predecessor. |
| C36 | partial | `C36_log_matching_partial`, `C36_snapshots_refuted` | Proved for every cluster size, schedule and crash/restart pattern, for servers that take no snapshots (the default). Refuted with snapshots (C36_snapshots_refuted): installing a snapshot keeps a conflicting suffix of the log. |
| C37 | partial | `C37_leader_log_partial`, `C37_leader_log_refuted` | Proved for every event of a server that is not catching up. Refuted in general: a server that accepted a join invitation while a vote request of its own was outstanding can become leader, and a log-sync request then replaces its log. |
| C38 | partial | `C38_same_term_same_entry_partial`, `C38_same_entry_refuted`, `C38_same_entry_partial`, `C38_local_rules_partial`, `C38_one_leader_so_far_partial`, `C38_snapshots_refuted` | False as stated: C38_same_entry_refuted (the leader counts copies of entries of earlier terms, the schedule of Figure 8 of the Raft paper), C66_follower_differs_refuted (a follower goes beyond what the message covers) and, with snapshots, C38_snapshots_refuted. Proved for clusters of two or more servers without snapshots: C38_same_entry_partial for every run in which commit indexes are moved by the two rules of the paper (careful, CommitSpec.v); C38_local_rules_partial for every run that passes three checks each server can make itself; C38_one_leader_so_far_partial and C38_same_term_same_entry_partial for all runs. |
| C39 | partial | `C39_prevote_no_effect`, `C39_prevote_granted_partial`, `C39_prevote_refuted` | No side effects for every pre-vote request; exact grant condition (iff) when the end of the log is still in the log; refuted when the log is completely compacted (last term taken as 0). |
| C40 | partial | `C40_timer_pending_partial`, `C40_prevote_refuted`, `C40_joined_refuted` | Proved for servers without pre-votes that were never asked to join. Refuted otherwise: with pre-votes, when the pre-vote requests fail nothing restarts the timer (C40_prevote_refuted); a server that joined and whose timeout fired while it was catching up has no timer (C40_joined_refuted). |
| C41 | partial | `C41_cut_off_partial`, `C41_cut_off_refuted` | Proved when the remembered elapsed time is over the limit (iff). Refuted: is_leader() keeps the elapsed time in a static variable and never measures again once it was small, so a cut-off leader goes on accepting. |
| C42 | partial | `C42_accepted_partial`, `C42_unanswered_refuted`, `C42_leader_appends_partial`, `C42_others_refuse` | Exact effect on log, pre_commit calls and messages for every outcome. The claim that the request is always answered is false: a leader whose view of a follower's next index is beyond its own log (after a late acknowledgement, see C106) stores the entries and then ends its process without an answer (C42_unanswered_refuted). In runs of a fixed cluster without late acknowledgements every request at a leader in contact is accepted (C42_accepted_partial). |
| C43 | partial | `C43_replicate_log_partial`, `C43_replicate_log_refuted` | replicate_log always returns false (refuted); the appending itself is proved. |
| C44 | partial | `C44_two_changes_refuted`, `C44_one_change_partial`, `C44_early_refuted` | Refuted in two ways: two leave confirmations that arrive one after the other append two configurations (C44_two_changes_refuted), and applying an inherited configuration entry clears the guard while the leader own entry is uncommitted (C44_early_refuted). Proved: while the guard is set, no client request, API call, heartbeat, peer response or snapshot event makes the leader append a configuration or send an invitation or leave request. Not covered by the partial theorem: confirmations of earlier invitations and leave requests. |
| C45 | partial | `C45_own_entries_partial`, `C45_overwritten_entries`, `C45_own_entries_refuted` | Proved for every event other than responses about adding or removing a server; for those refuted: a former leader that is now a follower appends a configuration entry stamped with the new term when the answer of a leaving server arrives late. |
| C46 | partial | `C46_peers_partial`, `C46_peers_refuted` | Proved for one applied configuration with a higher index; refuted in general: a configuration whose index is not above the current one is ignored (C46_peers_refuted). |
| C47 | partial | `C47_heartbeat_partial`, `C47_rejected_partial`, `C47_start_index_refuted`, `C47_first_index_refuted` | Proved for heartbeats and rejected requests when the entries, or a readable snapshot covering them, are there. Refuted for a log that starts at the last entry of the snapshot (reserved items 1) and for a follower at index 1: the leader ends its own process. |
| C48 | partial | `C48_own_snapshot_refuted`, `C48_created_size`, `C48_after_restart_partial` | Refuted: the descriptor of a snapshot the server makes itself has size 0 until the process is started again, and the leader ends its process when it has to ship it. Proved: after a restart the snapshot can be shipped. |
| C49 | proved | `C49_transfer` | Whole transfer from the rejected request to the installed snapshot, any size and block size; each chunk must fit into a message. |
| C50 | partial | `C50_lost_ack_partial`, `C50_lost_last_ack_refuted` | Refuted: after the acknowledgement of the last chunk is lost the leader repeats that chunk for ever (any number of rounds). Proved: losing the acknowledgement of any other chunk is harmless. |
| C51 | partial | `C51_own_snapshot`, `C51_compact_partial`, `C51_crash_refuted` | Entries are only removed when they have been applied and a completed or just installed snapshot covers them; an own snapshot keeps the reserved entries (C51_own_snapshot, C51_compact_partial). Excluded: join requests, which set the applied index back. Refuted for a crash while installing: the log is compacted before the snapshot is applied (C51_crash_refuted, in a reachable cluster state). |
| C52 | partial | `C52_joining_partial`, `C52_prevote_refuted`, `C52_restart_refuted` | Proved for servers without pre-vote as long as the process is not restarted; with pre-vote the joining server answers pre-vote requests, and after a restart a joining server campaigns (both refuted by witness). |
| C53 | proved | `C53_response` | For every request that gets a response. |
| C54 | partial | `C54_wrong_shape_partial`, `C54_add_undecodable_partial`, `C54_install_partial`, `C54_refuted`, `C54_remove_type_refuted` | Partial: for every request of the leader-only types whose list of entries has the wrong shape the answer is a refusal and nothing changes; the undecodable-configuration cases are stated separately. Refuted in general: a join request with an undecodable configuration changes the role and term before it is refused, and a remove request is not checked for the type of its entry. |
| C55 | partial | `C55_removed_refuted`, `C55_not_a_peer_partial` | A late response through a peer object that the server has already freed is undefined behaviour (C55_removed_refuted); a response naming a server that is not a peer is ignored. |
| C56 | proved | `C56_leave` | Full statement proved. |
| C57 | partial | `C57_no_leader`, `C57_local`, `C57_forward`, `C57_empty`, `C57_result_partial`, `C57_swapped_refuted` | No leader, local leader, forwarding and empty batches: full. The result of a forwarded call: refuted for calls forwarded at the same time over the shared client (C57_swapped_refuted: the verdicts can be exchanged); proved for calls forwarded one at a time, in every interleaving with when_ready and get (get without spurious wake-ups). |
| C58 | proved | `C58_restart`, `C58_refuses` | After a restart the pending-change flag is exactly: some configuration entry lies above the commit index; while it is set add and remove requests are refused without effect. |
| C59 | partial | `C59_blocked_refuted`, `C59_add_partial`, `C59_remove_partial` | Refuted: overwriting an ordinary entry discards a configuration entry behind it without clearing the guard, so every later change is refused. Proved: when the guard is clear the request is accepted and the invitation or leave request is sent. |
| C60 | partial | `C60_more_chunks_refuted`, `C60_last_chunk_partial` | Refuted: after any chunk but the last the leader asks its log for index 0, which throws, and sends nothing more. Proved: the answer to the last chunk continues with the log. |
| C61 | partial | `C61_never_again_refuted`, `C61_next_partial` | Refuted: if the entries to reserve reach back before the start of the log (a follower that installed a snapshot, reserved > distance), compact throws out of on_snapshot_completed and the in-progress flag stays set for ever (C61_never_again_refuted with a reachable example). Otherwise the server is ready and asks at the next due entry (C61_next_partial; configuration newer than the entry excluded). |
| C62 | partial | `C62_install_again_refuted`, `C62_crash_partial`, `C62_crash_refuted` | Refuted between compacting and applying (C62_crash_refuted; every later attempt ends the process, C62_install_again_refuted). All other crash points are fine (C62_crash_partial). |
| C63 | partial | `C63_last_delay_refuted`, `C63_own_delay_partial`, `C63_last_delay_partial` | Every start belongs to its own schedule call and respects its delay; with no old handler queued the new delay is respected. Refuted otherwise: schedule clears the cancelled flag, so the queued handler of an old wait starts the action at once. |
| C64 | proved | `C64_fires` | Proved for the scheduler model (one task, owner calls not overlapping, sequentially consistent). |
| C65 | partial | `C65_applied_in_majority_partial`, `C65_acknowledged_by_majority_partial`, `C65_local_rules_partial`, `C65_applied_in_majority_refuted` | False as stated: a leader counts acknowledgements from earlier terms (matched index never reset), C65_applied_in_majority_refuted with five servers. Proved for careful runs and for runs that pass the local checks (CommitSpec.v), two or more servers, no snapshots. For all runs: C65_acknowledged_by_majority_partial, the servers that are counted have acknowledged the entries in some term that this server led. |
| C66 | partial | `C66_follower_has_leaders_log_partial`, `C66_applies_leaders_entries_partial`, `C66_applies_leaders_entries_refuted`, `C66_follower_differs_refuted` | False as stated: a follower takes the commit index of the message although the message covers less of the log, C66_applies_leaders_entries_refuted and C66_follower_differs_refuted. Proved for all runs without snapshots: up to the last entry the message covers the log is the leaders; and the commit claim if the message covers its commit index. |
| C67 | partial | `C67_leader_has_applied_partial`, `C67_local_rules_partial`, `C67_leader_has_applied_refuted` | False as stated (Figure 8), C67_leader_has_applied_refuted. Proved for careful runs and for runs that pass the local checks, two or more servers, no snapshots. |
| C68 | partial | `C68_applied_stays_partial`, `C68_local_rules_partial`, `C68_applied_stays_refuted` | False as stated (Figure 8), C68_applied_stays_refuted. Proved for careful runs and for runs that pass the local checks, two or more servers, no snapshots. |
| C69 | partial | `C69_in_force_partial`, `C69_goes_on_partial`, `C69_fixed_partial`, `C69_exit_refuted` | Refuted: a server that becomes leader before it has applied the first configuration entry gives its configuration a new index without predecessor; when it applies an entry below that index and a snapshot is due it ends its own process (C69_exit_refuted, three servers, fixed membership). Proved: the snapshot holds the configuration in force at its index, or the one of the last snapshot if that entry has been compacted; with fixed membership always the cluster servers; the process goes on whenever the current configuration is not newer than the entry. Excluded: chains of configurations that do not go back. |
| C70 | proved | `C70_once` | Full statement, for the client as a state machine whose operations complete in any order. |
| C71 | partial | `C71_swapped_refuted`, `C71_own_answer_partial` | Refuted when several calls are under way on one client (two threads run the two write completions in the opposite order; raft_server forwards API calls of concurrent threads over one client without any lock). Proved for calls made one at a time, over any failures and reconnections. |
| C72 | partial | `C72_reconnect_refuted`, `C72_reconnect_partial` | Refuted after a failed attempt to connect: by the documentation of asio the socket stays open, so the next request is written to an unconnected socket and fails whatever the server does. Proved: after any other failure the next call connects anew, and after a failed connect the one after the next does. |
| C73 | partial | `C73_endpoint_refuted`, `C73_endpoint_partial` | Refuted: a server removed and added again with another endpoint is still contacted at the old one (the client is cached per identifier and never dropped). Proved: the call goes to the known leader, at an endpoint configured for it at that moment or earlier in the same run. |
| C74 | partial | `C74_dash_refuted`, `C74_endpoint_partial`, `C74_one_endpoint_partial` | Refuted: a host name with a dash in its last label (tcp://raft-node:9001) gives a null client, which peer::send_req dereferences. Proved for every string: the exact set of accepted endpoints, and that host and port are the ones of the endpoint. |
| C75 | proved | `C75_lines`, `C75_timer`, `C75_flushed` | Proved for every interleaving of the service model (Service.v); the destructor of a logger is not modelled. |
| C76 | partial | `C76_flushed_partial`, `C76_second_returns`, `C76_woken_partial`, `C76_hangs_refuted`, `C76_returns_early_refuted`, `C76_second_call_refuted` | Refuted in three ways: the handler can notify before stop waits, then stop never returns (C76_hangs_refuted); a flush that has already passed the logger notifies too (C76_returns_early_refuted); a second call returns at once. Proved: a call that waits while the handler is still to run is woken, and if no flush is under way when the call wins the exchange, everything logged by then is in the files when it returns. |
| C77 | partial | `C77_all_gone_refuted`, `C77_fewer_partial`, `C77_count` | Refuted: every exception ends its worker thread; as many exceptions as processors stop the service for good. Proved: exactly how many handlers are run. |
| C78 | proved | `C78_new_leader` | Exact effect of winning, for any peers. Hypotheses: distinct peer ids (C-invariant of PeerInv.v) and the term of the last log entry is known. |
| C79 | partial | `C79_prevote_partial`, `C79_stale_refuted` | Proved that the answers come from a majority and arrived in the present term; refuted that they answer questions of that term: a late answer to a question of an earlier term counts. Servers that are asked to join a cluster are excluded. |
| C80 | proved | `C80_campaign` | Exact effect of the election timeout. |
| C81 | proved | `C81_elects_itself`, `C81_commits_at_once` | A server with an unfinished pre-vote from when it had other members is excluded (its timeouts are ignored). |
| C82 | proved | `C82_accepted`, `C82_catches_up` | Exact effect of one accepting answer, for every state of a leader that still has the entries its idle members lack; and the conversation with one follower until it has the whole log. |
| C83 | partial | `C83_agreed`, `C83_refused`, `C83_retried`, `C83_forced`, `C83_bounded`, `C83_bounded_refuted`, `C83_same_entries_refuted`, `C83_both_leave_refuted` | Proved: the exact effect of agreement, refusal and failure, and the bound on the number of failures when intervals grow. Refuted: the bound when the backoff is 0 (attempts go on for ever); that two servers which both agreed are both gone (the second configuration is made from the one in use); that a removal leaves servers with the same entries (the answer is handled by a server that is no longer leader, which appends a configuration with the term of the new leader). |
| C84 | partial | `C84_votes`, `C84_overlap_partial`, `C84_odd_partial`, `C84_one_leader_refuted`, `C84_applied_refuted` | Proved that a new leader has the persisted votes of a majority as large as its own membership demands, and that a term has one leader when both majorities are larger together than the number of servers (bound shown exact). Refuted in general: one removal from four servers, with no failure, gives two leaders in one term, which then commit different entries at the same index. Missing from the partial theorems: memberships for which the majorities need not overlap, and invited servers that have voted before. |
| C85 | partial | `C85_overwrite_keeps_below_partial`, `C85_overwrite_last_partial`, `C85_compact_shifts`, `C85_compact_all_loses`, `C85_overwrite_mixes_refuted`, `C85_overwrite_stale_refuted`, `C85_pack_mixes_refuted`, `C85_compact_moves_refuted` | Overwriting keeps every entry below the index at every stage, and is atomic for the last entry when the new one is not shorter. Otherwise false: entries nobody wrote, stale bytes behind the new entry; compaction can shift all indices (general theorem), lose everything (general theorem) or leave a folder that cannot be opened; the backups it writes are never read. For half-written records see C96. |
| C86 | partial | `C86_catches_up`, `C86_commit_wakes`, `C86_window_partial`, `C86_lost_refuted` | Refuted: commit() notifies without holding commit_lock_, so a notification between the test and the wait of the commit thread is lost and the entry stays unapplied until the next commit. Proved: outside that window sleeping means nothing is unapplied; a commit that finds the thread asleep wakes it; awake it applies everything in order. |
| C87 | partial | `C87_locks`, `C87_gets_in`, `C87_waits_partial`, `C87_waits_refuted`, `C87_returns`, `C87_hangs_refuted`, `C87_deadlock_refuted` | Refuted: the destructor returns exactly if its notification finds the commit thread asleep or just woken (C87_returns, C87_hangs_refuted; a thread that is already leaving may go either way); it deadlocks with a commit thread that needs lock_ for a configuration; a spurious wake-up lets it return early. |
| C88 | partial | `C88_in_order_partial`, `C88_index_refuted`, `C88_uncommitted_refuted`, `C88_conf_refuted` | Refuted when a snapshot is installed while entries are applied; proved for all interleavings in which the two do not overlap. |
| C89 | partial | `C89_no_deadlock`, `C89_exclusive`, `C89_read_twice_refuted` | Proved for all threads except the destructor; C89_read_twice_refuted: a thread takes the peer-set lock shared twice, which the C++ standard forbids. |
| C90 | partial | `C90_catches_up_partial`, `C90_lost_answer`, `C90_other_entries_refuted`, `C90_started_again_refuted`, `C90_applies_other_refuted` | Proved for a server whose entries, if any, are the leader's (an empty log in particular): catch-up in at most as many round trips as entries are missing, the log and the commit index then, repetition of a request. Refuted: entries the server already had are never compared and are taken for committed with the first pack; a server restarted in between refuses the pack and the leader's handler throws. The snapshot part of the exchange is C60. |
| C91 | partial | `C91_same_partial`, `C91_unknown_request_refuted`, `C91_any_bytes_refuted`, `C91_wrong_answer_refuted`, `C91_own_term_refuted`, `C91_answers_partial`, `C91_sends_partial`, `C91_always_answered_partial` | False of the code: a request with a type that is no request type ends the process (for safety, step down) or, from 20 on, reads past the table of names; an answer of a type the handler does not expect ends the process; so does an append or snapshot request that carries a leader's own term. Proved: among servers that run this code the types always fit, and three kinds of requests are always answered. |
| C92 | partial | `C92_in_order`, `C92_reads`, `C92_keeps_accepting`, `C92_accepts_none_after_stop`, `C92_stop_refuted`, `C92_late_session_refuted`, `C92_handler` | False for stop: open connections go on handing requests to the handler, any number of them, and a connection accepted just before stop is served after stop has returned. Proved: order and pairing of requests and answers on every connection, reading exactly when a request is complete, the accept loop never dying before stop, no accept after it, the handler being the one given to listen. |
| C93 | proved | `C93_round`, `C93_every_request`, `C93_alone`, `C93_applied` | The exchange starts from a leader that has its log committed, is in contact with its members and has nothing on its way to the members that will answer (`ready`), and members that have its last entry (`follows`); the theorem gives the same back, and an example reaches it from a cold start. Members that lack entries are C82's; a message that is lost is sent again with the next heartbeat (C47). Requests that arrive while one is on its way are not covered here. |
| C94 | partial | `C94_second_add_refuted`, `C94_superseded_refuted`, `C94_gives_up_partial`, `C94_next_partial`, `C94_forgets_change_refuted`, `C94_snapshot_lost_refuted`, `C94_left_out_refuted` | Proved: a server that never answers is given up after a bounded number of attempts with nothing else changed (C94_gives_up_partial), and the next can be added (C94_next_partial). Refuted, each for every state: a second add request replaces the first server, whose outstanding answer is then handed to freed memory whenever it arrives (C94_second_add_refuted); so does a message of a higher term (C94_superseded_refuted); giving up also forgets another change that is not committed (C94_forgets_change_refuted); one failure while a snapshot is sent leaves the addition hanging (C94_snapshot_lost_refuted); a removal agreed while the addition is not applied leaves the new server out (C94_left_out_refuted). The success path is C90. |
| C95 | partial | `C95_alone`, `C95_linear_partial`, `C95_compact_entry_refuted`, `C95_overwrite_entry_refuted`, `C95_append_entry_refuted`, `C95_last_refuted`, `C95_term_refuted`, `C95_range_refuted`, `C95_range_shifted_refuted` | Proved: every interleaving without an 'unlucky' step is linearizable (C95_linear_partial; the unlucky steps are listed in the definition unlucky). Refuted for every store: an entry that is kept by a compaction, overwritten or appended meanwhile makes entry_at throw and the store takes no more entries until it is compacted or opened again (C95_compact_entry_refuted, C95_overwrite_entry_refuted, C95_append_entry_refuted; the commit thread reads without the server lock, so a snapshot that completes meanwhile can end the process); last_entry answers the dummy entry and term_at 0 during a compaction; log_entries reads outside the cache (undefined behaviour) or hands out entries under wrong indices. |
| C96 | partial | `C96_append`, `C96_overwrite_keeps_below_partial`, `C96_start_torn`, `C96_first_start`, `C96_cut_refuted`, `C96_start_refuted` | Proved for every number of bytes: what a torn append leaves (C96_append), that a torn overwrite keeps every entry below (C96_overwrite_keeps_below_partial), where a torn start index lets the log begin (C96_start_torn), and when a torn first start can be repeated (C96_first_start). Refuted: after a crash an entry can be there with its data cut short, for every history and every entry with data (C96_cut_refuted); a torn start index moves the whole log (C96_start_refuted). Torn apply_pack over existing entries and torn moves of compact are in the model (apply_pack) or not (compact's data move) but not proved about. |
| C97 | partial | `C97_append_counts_refuted`, `C97_append_write_refuted`, `C97_compact_lost_refuted`, `C97_no_backup_partial`, `C97_stays_partial` | False. append: an error while flushing is reported, but the store counts the entry and answers with it although no start ever finds it (C97_append_counts_refuted); an error while writing leaves the store's answers, but the folder cannot be opened any more or has the entry cut short (C97_append_write_refuted). compact: any error after the backups are made loses the whole log, because the code that restores it empties the backup of the data file (C97_compact_lost_refuted, every history). Proved: without backups compact refuses and changes nothing (C97_no_backup_partial); if log.data cannot be removed the log is restored (C97_stays_partial). Errors inside write_at, apply_pack and the constructor are not modelled. |
| C98 | partial | `C98_on_files_partial`, `C98_restart_refuted`, `C98_commit_refuted` | C98_on_files_partial: every life on the files is a life of the server on the indexed log, all answers agree, every stop or crash leaves a folder that opens with the server's log; needs the conditions ops_ok of C14 (sizes, non-empty packs, no overwriting of uncached indices, no replacing of the last entry by a shorter one). C98_restart_refuted (for every such life): without the last condition the restarted server has the new entry with the end of the old one; C98_commit_refuted: it commits it. Crashes inside a store call: C21, C85, C96. |
| C99 | partial | `C99_on_files_partial`, `C99_log_matching_partial`, `C99_same_entry_partial`, `C99_same_entry_refuted` | C99_on_files_partial: every run on files is a run of the cluster on indexed logs and every store answers as its server's log, under C14's conditions on the calls of each store (stores_okay); C99_log_matching_partial and C99_same_entry_partial carry over C36 and C38. C99_same_entry_refuted: without them an uncommitted last entry overwritten by a shorter one of the next leader, and a restart, make two servers apply different entries of the same term at index 2. The schedule does not use the counting of old terms that refutes C38. Crashes inside a store call are not steps here (C21, C85, C96). |
| C100 | proved | `C100_bounded`, `C100_no_wrap`, `C100_sharp` | C100_bounded for every run with fixed membership (snapshots and crashes included), C100_no_wrap for 64 bits, C100_sharp shows the bound on terms is attained for every k. Not covered: offsets into snapshots and their sizes, numbers inside configurations, joining and leaving servers; a forged message with term 2^64 - 1 is outside the cluster model. |
| C101 | proved | `C101_first_few_arrive`, `C101_bytes_make_no_difference`, `C101_every_run_in_bytes`, `C101_messages_name_servers`, `C101_one_leader_in_bytes`, `C101_same_entry_in_bytes` | C101_bytes_make_no_difference is the refinement, C101_every_run_in_bytes the converse for runs whose requests carry at most 16 MiB (C12), C101_first_few_arrive the statement about one connection, C101_messages_name_servers about ids. Assumed: an answer to a piece of a snapshot names an offset below 2^64 (pieces_fit). Not covered: two requests written to one connection at the same time, bytes from other programs (C13). |
| C102 | partial | `C102_full_stack_partial`, `C102_one_leader_partial`, `C102_log_matching_partial`, `C102_same_entry_partial`, `C102_same_entry_refuted` | C102_full_stack_partial is the refinement; C102_one_leader_partial, C102_log_matching_partial (no snapshots) and C102_same_entry_partial its consequences. Partial because stores_okay excludes an overwrite of another length: C102_same_entry_refuted shows that without it two servers apply different bytes at one index and term, as C99_same_entry_refuted does. Crashes fall between calls of the store; within calls see C21, C85, C96. |
| C103 | partial | `C103_listener_partial`, `C103_joins_unheard_refuted` | C103_listener_partial for servers without pre-votes (the default) that are not asked to join a cluster. Refuted for every leader that is asked to join one (C103_joins_unheard_refuted): handle_join_cluster_req sets the role without calling the listener; a new server started on its own elects itself first, so this is the usual way to join (C103_joins_unheard_example). logs_catch_up, told by the commit thread, is not covered: Committer.v has the step but no claim about it. |
| C104 | proved | `C104_can_lead`, `C104_elects_again` | The theorem says that a way to a leader exists from every reachable state, not that timers find it. The chosen server is started anew in the continuation built, so a leader with an old term need not first hear of a newer one. Pre-votes of the chosen server are off and no server takes snapshots (with compacted logs votes are granted otherwise: C28). |
| C105 | proved | `C105_commits_at`, `C105_can_commit`, `C105_applies` | The theorem says that a way exists from every reachable state, not that the timers find it; the client's request arrives when the clock shows the time of the last answer of a majority. Applying asks that the leader's state machine is not ahead of its log in the state one starts from: a history in which committed entries are lost (C38) can break that. Pre-votes of the leader are off, it may send at least one entry per request, and no server takes snapshots. |
| C106 | partial | `C106_keeps_running_partial`, `C106_no_exit_partial`, `C106_heartbeat_exits_refuted`, `C106_keeps_running_refuted` | Refuted as stated: handle_peer_resp does not check that an answer belongs to the present term, so an acknowledgement from an earlier term sets the follower's next index beyond the end of the leader's log, and create_append_entries_req then calls system_exit(-1) (C106_heartbeat_exits_refuted for every such state, C106_keeps_running_refuted for a run of five servers that reaches one). Proved: in every run in which acknowledgements of earlier terms are not handled and the election timer, stopped on becoming leader, does not fire at a leader (C24 has the race), every event of every server ends normally (C106_keeps_running_partial) and no server ever asks to be ended (C106_no_exit_partial). Missing: changing membership and snapshots. |
| C107 | partial | `C107_stored`, `C107_at_its_place`, `C107_kept`, `C107_can_be_lost_refuted`, `C107_accepted_refuted` | The last part (what is applied at the index is the client's entry) is false: the leader answers before any other server has stored the entry (refuted, in general and by a run). Proved for all runs: the entries are stored at their indexes, no other entry of the term is ever there, and the accepting server loses one only to a leader of a later term. Fixed membership, no snapshots. |
| C108 | partial | `C108_later_leaders`, `C108_kept`, `C108_every_majority`, `C108_can_be_committed`, `C108_applied_partial`, `C108_applied_refuted` | All parts but the last are proved for every run. The last (no server applies anything else) is false because a leader counts copies of entries of earlier terms (refuted); proved for runs in which commit indexes are moved by the rules of the Raft paper (C108_applied_partial). Fixed membership, no snapshots; committing again is shown with pre-votes off. |
| C109 | partial | `C109_rest_is_for_ever`, `C109_timer_runs_partial`, `C109_never_at_rest_partial`, `C109_rest_refuted`, `C109_all_pre_votes_refuted` | True only without pre-votes: then a running server that does not lead always has its election timer running (C109_timer_runs_partial), so no reachable state is at rest. With pre-votes it is refuted: the election timeout stops the timer and sends pre-vote requests, a failed pre-vote request restarts nothing, and the pre-vote state is not cleared, so a short network outage at the start leaves all servers as followers for ever (C109_rest_refuted for three servers, C109_all_pre_votes_refuted for every cluster of two or more servers that use pre-votes, with C109_rest_is_for_ever). Fixed membership and no snapshots. |
| C110 | partial | `C110_can_lead_partial`, `C110_commits_partial`, `C110_same_term_partial`, `C110_support_partial`, `C110_three_servers_partial`, `C110_no_support_refuted`, `C110_at_odds_refuted`, `C110_elects_refuted` | Refuted: a pre-vote is granted only to a server whose term is at least that of the server asked and whose log is not older, and neither pre-vote requests nor their answers bring a newer term to anybody. Three servers that crashed at bad moments end with the newest log at the smallest term and the oldest log at the greatest term (C110_elects_refuted); from such a state no server ever leads, campaigns, changes its log or accepts a client's request, whatever is delivered and however often servers restart (C110_at_odds_refuted, for clusters of any size; C110_no_support_refuted needs only that no server has, with itself, a majority of servers whose terms are not greater and whose logs are not newer). Without pre-votes a way to a leader exists from every reachable state (C104). Fixed membership, no snapshots; the witness has the defensive mode of pre-votes off, with which even more is refused. What holds: if one server of a majority has both a log no older and a term no smaller than the others of that majority, and those of them in defensive mode use pre-votes too, some continuation makes it leader with its log kept (C110_can_lead_partial). So a majority whose servers are in one term can always elect a leader (C110_same_term_partial), and where all servers use pre-votes the states of C110_no_support_refuted are the only obstacle: every other reachable state can elect a leader (C110_support_partial; C110_three_servers_partial for two or three servers). A leader elected in this way takes and commits a client's request (C110_commits_partial). |
| C111 | partial | `C111_cut_off_partial`, `C111_disturbs_nobody_partial`, `C111_in_cluster_partial` | Proved for followers that have applied what they know to be committed, whose log has not been compacted and that have no calls to joining or leaving servers under way (follows_with, alone). C111_disturbs_nobody_partial: any server that gets one of its requests, in any state, is left as it was. C111_in_cluster_partial says the same from every reachable state of a cluster with fixed membership and no snapshots, whatever the other servers do meanwhile. The examples show the run of C111_example with the term raised when pre-votes are off, and two servers electing a leader while the third is cut off. |

## Layers

1. `Base` bytes, integers, results.
2. `Buffer` the raw memory block of `buffer` (header bits, positions, data);
   `BufferSpec`, `BufferProofs`, `BufferTop` refinement to an abstract buffer; `P_Buffer`.
3. `Codec` the serializers of `srv_config`, `cluster_config`, `snapshot`,
   `snapshot_sync_req`, `log_entry` as sequences of buffer operations;
   `CodecSpec`, `CodecProofs`, `P_Codec`.  `Msg` the messages.
4. `Rpc` the TCP framing (bytes of requests and responses, the session's reader);
   `RpcSpec`, `RpcProofs`, `P_Rpc`.  `Client` the client's state machine; `P_Client`. `Listener` the accept loop and sessions; `P_Listener`.
   `Endpoint` the endpoint's regular expression; `P_Endpoint`.  `Service` loggers, stop and
   worker threads; `P_Service`.
5. `FsLogStore` the file-based log store on three byte files with stream positions
   and fail bits; `FsLogSpec` the indexed log it is meant to be; `FsLogProofs`,
   `FsLogOps`, `FsLogReads`, `FsLogChange`, `FsLogTop`, `FsLogWeak`, `P_LogStore`; `FsLogCrash`: what a crash between two file
   changes of append, write_at, apply_pack or compact leaves; `P_Crash`.  `FsLogTorn` the folder a crash in the middle of
   a write leaves; `P_Torn`.  `LogShare` the same store used by
   several threads, with both of its locks; `P_LogShare`.  `LogFault` file operations that fail; `P_Fault`.  `Stack` a server
   of layer 7 on these files; `P_Stack`.  `StackCluster` a cluster of them; `P_StackCluster`.
   `Bounds` measures runs of a cluster, `BoundsWalk`, `P_Bounds` bound every number in them.
   `Wire` is a cluster whose messages go through the byte connections of `Rpc`; `WireFacts`, `P_Wire`.
   `Full` is a cluster with both, files and byte connections; `P_Full`.
   `Events` says what the event listener of a server is told; `P_Events`.
6. `Async` (`async_result`) and `Sched` (`delayed_task`, `timer_task`, the scheduler)
   as threads that interleave step by step; `P_Async`, `P_Sched`.
7. `Raft` one server: constructor, all request and response handlers, timers, the
   committing thread, snapshots, API calls, as functions from a state to an outcome, a
   state and the list of actions (persisting, log writes, sends, state machine calls).
   `NodeSpec` the lives of a server: any sequence of events; a crash keeps any prefix of
   the actions of an event.  `ServerSpec` what handling a request means.  Reasoning:
   `RaftQuiet`, `RaftWalk`, `WalkAll`, `PeerWalk`, `RaftTrace`, `RaftTrace2`,
   `RaftTrace3`, `Runs`, `Wp`, `Alog`, `NodeFacts`, `NodeLife`, `AppendFacts`,
   `ServeFacts`, `PeerInv`.  Concrete lives: `NodeExamples`.
   Theorems: `P_Terms`, `P_Vote`, `P_Append`, `P_Commit`, `P_Leader`, `P_Peer`, `P_Out`,
   `P_Api`, `P_Forward`, `P_Leave`, `P_Config`, `P_Timer`, `P_Serve`, `P_Snap`,
   `P_Compact`, `P_SnapConf`, `P_Own`, `P_Elect`, `P_Ack`, `P_Change`.  `Progress` exchanges between a leader and
   its members; `P_Progress`.
8. `Cluster` a network of servers: any message ever sent may be delivered any number of
   times, at any time, or never; servers crash between any two actions.  Invariants:
   `ClusterElect`, `ClusterLog`, `ClusterWalk`, `ClusterRun` (and `...S` with snapshots),
   `ClusterSafe`, `CommitSpec`, `SafeRun`, `MatchWalk`, `MatchRun`.  Concrete clusters:
   `ClusterExamples`, `CommitExamples`.  Theorems: `P_Cluster`, `P_Safe`, `P_SnapMatch`.
9. `Committer` the commit thread, a handler and the destructor of one server, single step by
   single step; `P_Committer`.  `Locks` the lock operations of every function; `P_Locks`.  `P_Join` the exchange that adds a server.
10. `Member` the same network with members added and removed by API calls; `MemberElect` the
   votes behind every leader.  Theorems: `P_Member`, `P_Remove`.

## What is modelled

| source | in the model |
|--------|--------------|
| include/buffer.hxx, src/buffer.cxx | all of it, on the raw block (streams `operator<<`, `>>`: only their use by the log store and the RPC code) |
| srv_config, cluster_config, snapshot, snapshot_sync_req, log_entry | serialization and deserialization on the buffer model |
| src/fs_log_store.cxx | all operations and the entry cache, byte by byte, and their interleavings (`LogShare`); file operations that fail in append and compact (`LogFault`), not those in write_at, apply_pack and the constructor |
| src/asio_service.cxx | request and response bytes, `rpc_session`'s reader, the client's state machine, `schedule`/`cancel_impl`, `create_client`, the loggers' queues and files, `stop`, the worker threads, the listener's accept loop and its sessions (`Listener`); not modelled: the text of log lines |
| include/async.hxx, delayed_task.hxx, timer_task.hxx, delayed_task_scheduler.hxx | all of it |
| srv_state, prevote_state, raft_params, msg types | as parts of the server state and of the messages |
| src/peer.cxx, include/peer.hxx, snapshot_sync_ctx.hxx | all of it (as part of `Raft`) |
| src/raft_server.cxx, raft_server_req_handlers.cxx, raft_server_resp_handlers.cxx | every function; the destructor and the waking of the commit thread in `Committer`, the locks in `Locks`; `Intake` has the log calls that name received messages; not modelled: other logging, the `logs_catch_up` event of `raft_event_listener` |

## Simplifications and assumptions of the server and cluster layers

* One event is handled at a time, under the server's lock, up to its end (the code takes
  `lock_` in every handler); the commit thread, which does not hold it, is one more event per entry
  in `Raft`.  What its interleaving with the handlers can break is the subject of C86-C88; the
  locks themselves that of C89.
* Terms and indexes are unbounded naturals in `Raft`; wrap-around at 2^64 is treated in the
  buffer, codec, RPC and log store layers, and C100 proves that in a cluster with fixed
  membership no term or index reaches it.
* The application's commit, apply_snapshot and create_snapshot are durable when they
  return; `last_snapshot` reports the true size after a restart; the completion of a
  snapshot is a separate, later event.
* The log store used by the server is the indexed log of `FsLogSpec`; that the file log store
  is one, under the conditions of C14, is C98 (`Stack`: the server with the files run along) and, for a cluster, C99 (`StackCluster`).
* Undefined behaviour ends the process in the model; nothing is claimed beyond it.  An
  exception ends the handler only.
* The client factory always returns a client; random election timeouts are events that may
  happen at any time.
* Cluster theorems are for a fixed membership (no add, remove, join, leave requests), except C83
  and C84;
  log and safety theorems (C36, C38, C65-C68) also need that no snapshots are made, and two or
  more servers; C35 covers snapshots.  The network over-approximates: responses may be
  duplicated or arrive after a restart.  A response is taken to belong to the request it is
  delivered with (C71 says when the TCP client guarantees that).
* The concurrent models (`Async`, `Sched`, `Client`, `Service`, `Committer`, `Locks`) are sequentially consistent.

## Trusted base

* Coq 8.16.1's kernel, including `vm_compute` (used for the concrete executions).
* Axioms: none.  `Print Assumptions` answers "Closed under the global context" for every
  theorem listed in MANIFEST.json.  The only axioms in loaded libraries are those of
  `Coq.ssr.ssrunder` (standard library), which no theorem uses.
* The reading of the C++ code that the comments in the model files document, and for asio,
  iostreams and std::condition_variable the documented behaviour stated there.

