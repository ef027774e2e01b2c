{
 "claims": [
  {
   "property": "C01",
   "status": "proved",
   "theorems": [
    "C01_buffer_safe",
    "C01_buffer_refines",
    "C01_header_inside"
   ],
   "note": "Raw memory block with both header layouts, all operation sequences, arbitrary uninitialised memory."
  },
  {
   "property": "C02",
   "status": "proved",
   "theorems": [
    "C02_typed_round_trip"
   ],
   "note": "Every sequence of writes that fits, read back with the matching reads."
  },
  {
   "property": "C03",
   "status": "proved",
   "theorems": [
    "C03_put_ulong_layout",
    "C03_put_int_layout",
    "C03_get_ulong",
    "C03_get_int"
   ],
   "note": "Every value and every four or eight bytes."
  },
  {
   "property": "C04",
   "status": "proved",
   "theorems": [
    "C04_alloc",
    "C04_kind_stable",
    "C04_set_pos"
   ],
   "note": "Every size; both block kinds."
  },
  {
   "property": "C05",
   "status": "partial",
   "theorems": [
    "C05_get_buf_refuted",
    "C05_get_buf_partial"
   ],
   "note": "The property is false of the code (refuted): get(bufptr&) has no bounds check. Partial: exact condition for the over-read and exact effect otherwise."
  },
  {
   "property": "C06",
   "status": "partial",
   "theorems": [
    "C06_empty_string_refuted",
    "C06_empty_string_always_lost",
    "C06_string_round_trip_partial"
   ],
   "note": "False for the empty string (refuted, and shown for every block); proved for every non-empty NUL-free string."
  },
  {
   "property": "C07",
   "status": "proved",
   "theorems": [
    "C07_put_buffer",
    "C07_copy"
   ],
   "note": "Every pair of buffers."
  },
  {
   "property": "C08",
   "status": "partial",
   "theorems": [
    "C08_config_round_trip_partial",
    "C08_srv_round_trip_partial",
    "C08_too_large_throws",
    "C08_empty_endpoint_refuted",
    "C08_nul_in_endpoint_refuted"
   ],
   "note": "Proved for every configuration with non-empty NUL-free endpoints, read from any buffer at any position; refuted for an empty endpoint (undefined behaviour) and for an endpoint with a NUL byte."
  },
  {
   "property": "C09",
   "status": "proved",
   "theorems": [
    "C09_snapshot_round_trip",
    "C09_sync_req_round_trip"
   ],
   "note": "Every snapshot descriptor and chunk within the size limits of a buffer."
  },
  {
   "property": "C10",
   "status": "proved",
   "theorems": [
    "C10_entry_round_trip"
   ],
   "note": "Every entry, whatever the position of its buffer."
  },
  {
   "property": "C11",
   "status": "proved",
   "theorems": [
    "C11_request_bytes",
    "C11_requests_arrive",
    "C11_response_arrives"
   ],
   "note": "Every request and response, entry payloads within the message limit."
  },
  {
   "property": "C12",
   "status": "partial",
   "theorems": [
    "C12_big_entry_refuted",
    "C12_delivery_limit_partial"
   ],
   "note": "False (refuted): more than 16 MiB of log data closes the session. Partial: the exact limit."
  },
  {
   "property": "C13",
   "status": "partial",
   "theorems": [
    "C13_overread_refuted",
    "C13_session_safe_partial"
   ],
   "note": "False (refuted). Partial: exact characterisation of the streams that lead to undefined behaviour."
  },
  {
   "property": "C14",
   "status": "partial",
   "theorems": [
    "C14_indexed_log_partial",
    "C14_limited_cache_partial",
    "C14_in_memory_partial",
    "C14_refuted"
   ],
   "note": "Refinement to an indexed log for every operation sequence meeting ops_ok (the last entry is not shortened in place before a reload, no write below the cached window, sizes within int limits); arbitrary overwrites while nothing is reloaded from the files. The unconditional statement is false (refuted)."
  },
  {
   "property": "C15",
   "status": "partial",
   "theorems": [
    "C15_reopen_partial",
    "C15_stale_tail_refuted",
    "C15_long_log_refuted"
   ],
   "note": "Proved for every history meeting ops_ok and every pair of cache sizes; refuted after a shortening overwrite and, for all logs of 2^28 entries or more, with the default cache."
  },
  {
   "property": "C16",
   "status": "partial",
   "theorems": [
    "C16_overwrite_partial",
    "C16_shorter_last_refuted"
   ],
   "note": "Proved when the overwritten tail does not shrink in bytes unless the entry count shrinks; the property itself is false (refuted)."
  },
  {
   "property": "C17",
   "status": "partial",
   "theorems": [
    "C17_cache_size_partial",
    "C17_write_below_cache_refuted",
    "C17_zero_cache_refuted"
   ],
   "note": "Any two non-zero cache sizes give the same answers for all histories meeting ops_ok in both; refuted for a write below the cached window and for size 0."
  },
  {
   "property": "C18",
   "status": "partial",
   "theorems": [
    "C18_range_partial",
    "C18_range_entries",
    "C18_before_cache_refuted"
   ],
   "note": "Exact for every range whose end is not below the cached window; refuted otherwise."
  },
  {
   "property": "C19",
   "status": "partial",
   "theorems": [
    "C19_pack_apply_partial",
    "C19_stale_tail_refuted"
   ],
   "note": "Proved for all pairs of histories and ranges within the stated size limits; refuted when the pack replaces a longer tail with the same number of entries."
  },
  {
   "property": "C20",
   "status": "partial",
   "theorems": [
    "C20_compact_partial",
    "C20_stale_tail_refuted"
   ],
   "note": "Proved for all histories meeting ops_ok; refuted after a shortening overwrite."
  },
  {
   "property": "C21",
   "status": "partial",
   "theorems": [
    "C21_before_and_after_partial",
    "C21_append_torn",
    "C21_append_data_first",
    "C21_crash_points",
    "C21_lost_refuted"
   ],
   "note": "False for every history: C21_crash_points decides every number of bytes written to the two files: the log before or after is found if and only if all or nothing was written (or nothing of the offset while the log was empty); otherwise the folder can never be opened again (C21_lost_refuted: such a point exists for every history and entry), the old last entry swallows the new bytes, or the new entry is cut short. Between whole file changes: before and after for every operation (C21_before_and_after_partial), C21_append_torn, C21_append_data_first."
  },
  {
   "property": "C22",
   "status": "partial",
   "theorems": [
    "C22_interval_bounds",
    "C22_growth_partial",
    "C22_success",
    "C22_failure",
    "C22_growth_refuted"
   ],
   "note": "Bounds and reset proved for every server history. Growth: one back-off per failed request; a failed join/sync/leave request counts twice (peer::handle_rpc_result and handle_ext_resp_err both call slow_down_hb), so the claim as stated is refuted for those and the partial theorem gives the factor two."
  },
  {
   "property": "C23",
   "status": "partial",
   "theorems": [
    "C23_twice_refuted",
    "C23_get_refuted",
    "C23_handler_constructor_refuted",
    "C23_handler_partial",
    "C23_once_partial",
    "C23_get_partial",
    "C23_given_result"
   ],
   "note": "In every interleaving the handler is only called with the result, at least once and at most once per thread; get without a spurious wake-up gives the result; no wake-up is lost. Exactly once is refuted (set_result between storing the handler and testing), as is get under a spurious wake-up. Model is sequentially consistent."
  },
  {
   "property": "C24",
   "status": "partial",
   "theorems": [
    "C24_race_refuted",
    "C24_cancel_partial",
    "C24_leader_exits_refuted"
   ],
   "note": "After cancel returned only workers that had already read the flag can start the action (each once). That case is refuted: the action can start after cancel, and a new leader whose election timeout was past the check ends its process."
  },
  {
   "property": "C25",
   "status": "partial",
   "theorems": [
    "C25_one_outstanding_partial",
    "C25_one_outstanding_refuted"
   ],
   "note": "At most one outstanding request per peer object in every run in which nothing is outstanding at the moment the server becomes leader. Refuted without that: become_leader calls set_free on every peer, so a re-elected leader sends a second request while the first is pending."
  },
  {
   "property": "C26",
   "status": "partial",
   "theorems": [
    "C26_term_monotone_partial",
    "C26_term_monotone_refuted"
   ],
   "note": "Proved for every life, crash and restart without join requests; refuted with them: join_cluster_req sets the term from the request, also to a lower one."
  },
  {
   "property": "C27",
   "status": "partial",
   "theorems": [
    "C27_one_vote_per_term_partial",
    "C27_vote_kept_across_restart_partial",
    "C27_vote_saved_before_answer",
    "C27_candidacy_saved_before_request",
    "C27_one_vote_per_term_refuted"
   ],
   "note": "Proved for every life without join requests (and server ids other than -1); refuted with them: joining resets the vote. The vote is saved before the answer or the request leaves, without these restrictions."
  },
  {
   "property": "C28",
   "status": "partial",
   "theorems": [
    "C28_vote_partial",
    "C28_vote_refuted"
   ],
   "note": "Exact condition (iff) for an accepted vote response when the log end is still in the log; refuted when the log is fully compacted (last term taken as 0)."
  },
  {
   "property": "C29",
   "status": "partial",
   "theorems": [
    "C29_append_partial",
    "C29_append_refuted"
   ],
   "note": "Exact response, log, commit index and actions for every append-entries request in reach of the log; refuted (exception) for index 0 on a compacted log."
  },
  {
   "property": "C30",
   "status": "partial",
   "theorems": [
    "C30_duplicate_partial",
    "C30_old_term_partial",
    "C30_delayed_refuted"
   ],
   "note": "Duplicates and old-term requests leave the log unchanged; refuted: a delayed request whose previous index was compacted makes the server exit."
  },
  {
   "property": "C31",
   "status": "partial",
   "theorems": [
    "C31_commit_index_partial",
    "C31_applied_index",
    "C31_commit_index_refuted"
   ],
   "note": "Applied index: every event except join. Commit index: every event except join and install-snapshot; refuted for the latter (a snapshot older than the commit index lowers it)."
  },
  {
   "property": "C32",
   "status": "proved",
   "theorems": [
    "C32_apply_one",
    "C32_in_order",
    "C32_no_gaps"
   ],
   "note": "Exact effect of each committer iteration; strictly increasing over whole lives with crashes and restarts; no gaps while running."
  },
  {
   "property": "C33",
   "status": "proved",
   "theorems": [
    "C33_majority"
   ],
   "note": "The new commit index is the maximum of the old one and the largest index a strict majority reached, for every accepted response."
  },
  {
   "property": "C34",
   "status": "partial",
   "theorems": [
    "C34_rollback_partial",
    "C34_rollback_refuted"
   ],
   "note": "Exact roll-back/pre-commit calls of one append-entries request; refuted: only the first conflicting entry is rolled back."
  },
  {
   "property": "C35",
   "status": "proved",
   "theorems": [
    "C35_one_leader_per_term",
    "C35_leader_led",
    "C35_one_leader_at_a_time"
   ],
   "note": "Fixed membership; snapshots, crashes, restarts, lost, duplicated and reordered messages included. Hypothesis: the initial configuration of every server is the same and has no predecessor."
  },
  {
   "property": "C36",
   "status": "partial",
   "theorems": [
    "C36_log_matching_partial",
    "C36_snapshots_refuted"
   ],
   "note": "Proved for every cluster size, schedule and crash/restart pattern, for servers that take no snapshots (the default). Refuted with snapshots (C36_snapshots_refuted): installing a snapshot keeps a conflicting suffix of the log."
  },
  {
   "property": "C37",
   "status": "partial",
   "theorems": [
    "C37_leader_log_partial",
    "C37_leader_log_refuted"
   ],
   "note": "Proved for every event of a server that is not catching up. Refuted in general: a server that accepted a join invitation while a vote request of its own was outstanding can become leader, and a log-sync request then replaces its log."
  },
  {
   "property": "C38",
   "status": "partial",
   "theorems": [
    "C38_same_term_same_entry_partial",
    "C38_same_entry_refuted",
    "C38_same_entry_partial",
    "C38_local_rules_partial",
    "C38_one_leader_so_far_partial",
    "C38_snapshots_refuted"
   ],
   "note": "False as stated: C38_same_entry_refuted (the leader counts copies of entries of earlier terms, the schedule of Figure 8 of the Raft paper), C66_follower_differs_refuted (a follower goes beyond what the message covers) and, with snapshots, C38_snapshots_refuted. Proved for clusters of two or more servers without snapshots: C38_same_entry_partial for every run in which commit indexes are moved by the two rules of the paper (careful, CommitSpec.v); C38_local_rules_partial for every run that passes three checks each server can make itself; C38_one_leader_so_far_partial and C38_same_term_same_entry_partial for all runs."
  },
  {
   "property": "C39",
   "status": "partial",
   "theorems": [
    "C39_prevote_no_effect",
    "C39_prevote_granted_partial",
    "C39_prevote_refuted"
   ],
   "note": "No side effects for every pre-vote request; exact grant condition (iff) when the end of the log is still in the log; refuted when the log is completely compacted (last term taken as 0)."
  },
  {
   "property": "C40",
   "status": "partial",
   "theorems": [
    "C40_timer_pending_partial",
    "C40_prevote_refuted",
    "C40_joined_refuted"
   ],
   "note": "Proved for servers without pre-votes that were never asked to join. Refuted otherwise: with pre-votes, when the pre-vote requests fail nothing restarts the timer (C40_prevote_refuted); a server that joined and whose timeout fired while it was catching up has no timer (C40_joined_refuted)."
  },
  {
   "property": "C41",
   "status": "partial",
   "theorems": [
    "C41_cut_off_partial",
    "C41_cut_off_refuted"
   ],
   "note": "Proved when the remembered elapsed time is over the limit (iff). Refuted: is_leader() keeps the elapsed time in a static variable and never measures again once it was small, so a cut-off leader goes on accepting."
  },
  {
   "property": "C42",
   "status": "partial",
   "theorems": [
    "C42_accepted_partial",
    "C42_unanswered_refuted",
    "C42_leader_appends_partial",
    "C42_others_refuse"
   ],
   "note": "Exact effect on log, pre_commit calls and messages for every outcome. The claim that the request is always answered is false: a leader whose view of a follower's next index is beyond its own log (after a late acknowledgement, see C106) stores the entries and then ends its process without an answer (C42_unanswered_refuted). In runs of a fixed cluster without late acknowledgements every request at a leader in contact is accepted (C42_accepted_partial)."
  },
  {
   "property": "C43",
   "status": "partial",
   "theorems": [
    "C43_replicate_log_partial",
    "C43_replicate_log_refuted"
   ],
   "note": "replicate_log always returns false (refuted); the appending itself is proved."
  },
  {
   "property": "C44",
   "status": "partial",
   "theorems": [
    "C44_two_changes_refuted",
    "C44_one_change_partial",
    "C44_early_refuted"
   ],
   "note": "Refuted in two ways: two leave confirmations that arrive one after the other append two configurations (C44_two_changes_refuted), and applying an inherited configuration entry clears the guard while the leader own entry is uncommitted (C44_early_refuted). Proved: while the guard is set, no client request, API call, heartbeat, peer response or snapshot event makes the leader append a configuration or send an invitation or leave request. Not covered by the partial theorem: confirmations of earlier invitations and leave requests."
  },
  {
   "property": "C45",
   "status": "partial",
   "theorems": [
    "C45_own_entries_partial",
    "C45_overwritten_entries",
    "C45_own_entries_refuted"
   ],
   "note": "Proved for every event other than responses about adding or removing a server; for those refuted: a former leader that is now a follower appends a configuration entry stamped with the new term when the answer of a leaving server arrives late."
  },
  {
   "property": "C46",
   "status": "partial",
   "theorems": [
    "C46_peers_partial",
    "C46_peers_refuted"
   ],
   "note": "Proved for one applied configuration with a higher index; refuted in general: a configuration whose index is not above the current one is ignored (C46_peers_refuted)."
  },
  {
   "property": "C47",
   "status": "partial",
   "theorems": [
    "C47_heartbeat_partial",
    "C47_rejected_partial",
    "C47_start_index_refuted",
    "C47_first_index_refuted"
   ],
   "note": "Proved for heartbeats and rejected requests when the entries, or a readable snapshot covering them, are there. Refuted for a log that starts at the last entry of the snapshot (reserved items 1) and for a follower at index 1: the leader ends its own process."
  },
  {
   "property": "C48",
   "status": "partial",
   "theorems": [
    "C48_own_snapshot_refuted",
    "C48_created_size",
    "C48_after_restart_partial"
   ],
   "note": "Refuted: the descriptor of a snapshot the server makes itself has size 0 until the process is started again, and the leader ends its process when it has to ship it. Proved: after a restart the snapshot can be shipped."
  },
  {
   "property": "C49",
   "status": "proved",
   "theorems": [
    "C49_transfer"
   ],
   "note": "Whole transfer from the rejected request to the installed snapshot, any size and block size; each chunk must fit into a message."
  },
  {
   "property": "C50",
   "status": "partial",
   "theorems": [
    "C50_lost_ack_partial",
    "C50_lost_last_ack_refuted"
   ],
   "note": "Refuted: after the acknowledgement of the last chunk is lost the leader repeats that chunk for ever (any number of rounds). Proved: losing the acknowledgement of any other chunk is harmless."
  },
  {
   "property": "C51",
   "status": "partial",
   "theorems": [
    "C51_own_snapshot",
    "C51_compact_partial",
    "C51_crash_refuted"
   ],
   "note": "Entries are only removed when they have been applied and a completed or just installed snapshot covers them; an own snapshot keeps the reserved entries (C51_own_snapshot, C51_compact_partial). Excluded: join requests, which set the applied index back. Refuted for a crash while installing: the log is compacted before the snapshot is applied (C51_crash_refuted, in a reachable cluster state)."
  },
  {
   "property": "C52",
   "status": "partial",
   "theorems": [
    "C52_joining_partial",
    "C52_prevote_refuted",
    "C52_restart_refuted"
   ],
   "note": "Proved for servers without pre-vote as long as the process is not restarted; with pre-vote the joining server answers pre-vote requests, and after a restart a joining server campaigns (both refuted by witness)."
  },
  {
   "property": "C53",
   "status": "proved",
   "theorems": [
    "C53_response"
   ],
   "note": "For every request that gets a response."
  },
  {
   "property": "C54",
   "status": "partial",
   "theorems": [
    "C54_wrong_shape_partial",
    "C54_add_undecodable_partial",
    "C54_install_partial",
    "C54_refuted",
    "C54_remove_type_refuted"
   ],
   "note": "Partial: for every request of the leader-only types whose list of entries has the wrong shape the answer is a refusal and nothing changes; the undecodable-configuration cases are stated separately. Refuted in general: a join request with an undecodable configuration changes the role and term before it is refused, and a remove request is not checked for the type of its entry."
  },
  {
   "property": "C55",
   "status": "partial",
   "theorems": [
    "C55_removed_refuted",
    "C55_not_a_peer_partial"
   ],
   "note": "A late response through a peer object that the server has already freed is undefined behaviour (C55_removed_refuted); a response naming a server that is not a peer is ignored."
  },
  {
   "property": "C56",
   "status": "proved",
   "theorems": [
    "C56_leave"
   ],
   "note": "Full statement proved."
  },
  {
   "property": "C57",
   "status": "partial",
   "theorems": [
    "C57_no_leader",
    "C57_local",
    "C57_forward",
    "C57_empty",
    "C57_result_partial",
    "C57_swapped_refuted"
   ],
   "note": "No leader, local leader, forwarding and empty batches: full. The result of a forwarded call: refuted for calls forwarded at the same time over the shared client (C57_swapped_refuted: the verdicts can be exchanged); proved for calls forwarded one at a time, in every interleaving with when_ready and get (get without spurious wake-ups)."
  },
  {
   "property": "C58",
   "status": "proved",
   "theorems": [
    "C58_restart",
    "C58_refuses"
   ],
   "note": "After a restart the pending-change flag is exactly: some configuration entry lies above the commit index; while it is set add and remove requests are refused without effect."
  },
  {
   "property": "C59",
   "status": "partial",
   "theorems": [
    "C59_blocked_refuted",
    "C59_add_partial",
    "C59_remove_partial"
   ],
   "note": "Refuted: overwriting an ordinary entry discards a configuration entry behind it without clearing the guard, so every later change is refused. Proved: when the guard is clear the request is accepted and the invitation or leave request is sent."
  },
  {
   "property": "C60",
   "status": "partial",
   "theorems": [
    "C60_more_chunks_refuted",
    "C60_last_chunk_partial"
   ],
   "note": "Refuted: after any chunk but the last the leader asks its log for index 0, which throws, and sends nothing more. Proved: the answer to the last chunk continues with the log."
  },
  {
   "property": "C61",
   "status": "partial",
   "theorems": [
    "C61_never_again_refuted",
    "C61_next_partial"
   ],
   "note": "Refuted: if the entries to reserve reach back before the start of the log (a follower that installed a snapshot, reserved > distance), compact throws out of on_snapshot_completed and the in-progress flag stays set for ever (C61_never_again_refuted with a reachable example). Otherwise the server is ready and asks at the next due entry (C61_next_partial; configuration newer than the entry excluded)."
  },
  {
   "property": "C62",
   "status": "partial",
   "theorems": [
    "C62_install_again_refuted",
    "C62_crash_partial",
    "C62_crash_refuted"
   ],
   "note": "Refuted between compacting and applying (C62_crash_refuted; every later attempt ends the process, C62_install_again_refuted). All other crash points are fine (C62_crash_partial)."
  },
  {
   "property": "C63",
   "status": "partial",
   "theorems": [
    "C63_last_delay_refuted",
    "C63_own_delay_partial",
    "C63_last_delay_partial"
   ],
   "note": "Every start belongs to its own schedule call and respects its delay; with no old handler queued the new delay is respected. Refuted otherwise: schedule clears the cancelled flag, so the queued handler of an old wait starts the action at once."
  },
  {
   "property": "C64",
   "status": "proved",
   "theorems": [
    "C64_fires"
   ],
   "note": "Proved for the scheduler model (one task, owner calls not overlapping, sequentially consistent)."
  },
  {
   "property": "C65",
   "status": "partial",
   "theorems": [
    "C65_applied_in_majority_partial",
    "C65_acknowledged_by_majority_partial",
    "C65_local_rules_partial",
    "C65_applied_in_majority_refuted"
   ],
   "note": "False as stated: a leader counts acknowledgements from earlier terms (matched index never reset), C65_applied_in_majority_refuted with five servers. Proved for careful runs and for runs that pass the local checks (CommitSpec.v), two or more servers, no snapshots. For all runs: C65_acknowledged_by_majority_partial, the servers that are counted have acknowledged the entries in some term that this server led."
  },
  {
   "property": "C66",
   "status": "partial",
   "theorems": [
    "C66_follower_has_leaders_log_partial",
    "C66_applies_leaders_entries_partial",
    "C66_applies_leaders_entries_refuted",
    "C66_follower_differs_refuted"
   ],
   "note": "False as stated: a follower takes the commit index of the message although the message covers less of the log, C66_applies_leaders_entries_refuted and C66_follower_differs_refuted. Proved for all runs without snapshots: up to the last entry the message covers the log is the leaders; and the commit claim if the message covers its commit index."
  },
  {
   "property": "C67",
   "status": "partial",
   "theorems": [
    "C67_leader_has_applied_partial",
    "C67_local_rules_partial",
    "C67_leader_has_applied_refuted"
   ],
   "note": "False as stated (Figure 8), C67_leader_has_applied_refuted. Proved for careful runs and for runs that pass the local checks, two or more servers, no snapshots."
  },
  {
   "property": "C68",
   "status": "partial",
   "theorems": [
    "C68_applied_stays_partial",
    "C68_local_rules_partial",
    "C68_applied_stays_refuted"
   ],
   "note": "False as stated (Figure 8), C68_applied_stays_refuted. Proved for careful runs and for runs that pass the local checks, two or more servers, no snapshots."
  },
  {
   "property": "C69",
   "status": "partial",
   "theorems": [
    "C69_in_force_partial",
    "C69_goes_on_partial",
    "C69_fixed_partial",
    "C69_exit_refuted"
   ],
   "note": "Refuted: a server that becomes leader before it has applied the first configuration entry gives its configuration a new index without predecessor; when it applies an entry below that index and a snapshot is due it ends its own process (C69_exit_refuted, three servers, fixed membership). Proved: the snapshot holds the configuration in force at its index, or the one of the last snapshot if that entry has been compacted; with fixed membership always the cluster servers; the process goes on whenever the current configuration is not newer than the entry. Excluded: chains of configurations that do not go back."
  },
  {
   "property": "C70",
   "status": "proved",
   "theorems": [
    "C70_once"
   ],
   "note": "Full statement, for the client as a state machine whose operations complete in any order."
  },
  {
   "property": "C71",
   "status": "partial",
   "theorems": [
    "C71_swapped_refuted",
    "C71_own_answer_partial"
   ],
   "note": "Refuted when several calls are under way on one client (two threads run the two write completions in the opposite order; raft_server forwards API calls of concurrent threads over one client without any lock). Proved for calls made one at a time, over any failures and reconnections."
  },
  {
   "property": "C72",
   "status": "partial",
   "theorems": [
    "C72_reconnect_refuted",
    "C72_reconnect_partial"
   ],
   "note": "Refuted after a failed attempt to connect: by the documentation of asio the socket stays open, so the next request is written to an unconnected socket and fails whatever the server does. Proved: after any other failure the next call connects anew, and after a failed connect the one after the next does."
  },
  {
   "property": "C73",
   "status": "partial",
   "theorems": [
    "C73_endpoint_refuted",
    "C73_endpoint_partial"
   ],
   "note": "Refuted: a server removed and added again with another endpoint is still contacted at the old one (the client is cached per identifier and never dropped). Proved: the call goes to the known leader, at an endpoint configured for it at that moment or earlier in the same run."
  },
  {
   "property": "C74",
   "status": "partial",
   "theorems": [
    "C74_dash_refuted",
    "C74_endpoint_partial",
    "C74_one_endpoint_partial"
   ],
   "note": "Refuted: a host name with a dash in its last label (tcp://raft-node:9001) gives a null client, which peer::send_req dereferences. Proved for every string: the exact set of accepted endpoints, and that host and port are the ones of the endpoint."
  },
  {
   "property": "C75",
   "status": "proved",
   "theorems": [
    "C75_lines",
    "C75_timer",
    "C75_flushed"
   ],
   "note": "Proved for every interleaving of the service model (Service.v); the destructor of a logger is not modelled."
  },
  {
   "property": "C76",
   "status": "partial",
   "theorems": [
    "C76_flushed_partial",
    "C76_second_returns",
    "C76_woken_partial",
    "C76_hangs_refuted",
    "C76_returns_early_refuted",
    "C76_second_call_refuted"
   ],
   "note": "Refuted in three ways: the handler can notify before stop waits, then stop never returns (C76_hangs_refuted); a flush that has already passed the logger notifies too (C76_returns_early_refuted); a second call returns at once. Proved: a call that waits while the handler is still to run is woken, and if no flush is under way when the call wins the exchange, everything logged by then is in the files when it returns."
  },
  {
   "property": "C77",
   "status": "partial",
   "theorems": [
    "C77_all_gone_refuted",
    "C77_fewer_partial",
    "C77_count"
   ],
   "note": "Refuted: every exception ends its worker thread; as many exceptions as processors stop the service for good. Proved: exactly how many handlers are run."
  },
  {
   "property": "C78",
   "status": "proved",
   "theorems": [
    "C78_new_leader"
   ],
   "note": "Exact effect of winning, for any peers. Hypotheses: distinct peer ids (C-invariant of PeerInv.v) and the term of the last log entry is known."
  },
  {
   "property": "C79",
   "status": "partial",
   "theorems": [
    "C79_prevote_partial",
    "C79_stale_refuted"
   ],
   "note": "Proved that the answers come from a majority and arrived in the present term; refuted that they answer questions of that term: a late answer to a question of an earlier term counts. Servers that are asked to join a cluster are excluded."
  },
  {
   "property": "C80",
   "status": "proved",
   "theorems": [
    "C80_campaign"
   ],
   "note": "Exact effect of the election timeout."
  },
  {
   "property": "C81",
   "status": "proved",
   "theorems": [
    "C81_elects_itself",
    "C81_commits_at_once"
   ],
   "note": "A server with an unfinished pre-vote from when it had other members is excluded (its timeouts are ignored)."
  },
  {
   "property": "C82",
   "status": "proved",
   "theorems": [
    "C82_accepted",
    "C82_catches_up"
   ],
   "note": "Exact effect of one accepting answer, for every state of a leader that still has the entries its idle members lack; and the conversation with one follower until it has the whole log."
  },
  {
   "property": "C83",
   "status": "partial",
   "theorems": [
    "C83_agreed",
    "C83_refused",
    "C83_retried",
    "C83_forced",
    "C83_bounded",
    "C83_bounded_refuted",
    "C83_same_entries_refuted",
    "C83_both_leave_refuted"
   ],
   "note": "Proved: the exact effect of agreement, refusal and failure, and the bound on the number of failures when intervals grow. Refuted: the bound when the backoff is 0 (attempts go on for ever); that two servers which both agreed are both gone (the second configuration is made from the one in use); that a removal leaves servers with the same entries (the answer is handled by a server that is no longer leader, which appends a configuration with the term of the new leader)."
  },
  {
   "property": "C84",
   "status": "partial",
   "theorems": [
    "C84_votes",
    "C84_overlap_partial",
    "C84_odd_partial",
    "C84_one_leader_refuted",
    "C84_applied_refuted"
   ],
   "note": "Proved that a new leader has the persisted votes of a majority as large as its own membership demands, and that a term has one leader when both majorities are larger together than the number of servers (bound shown exact). Refuted in general: one removal from four servers, with no failure, gives two leaders in one term, which then commit different entries at the same index. Missing from the partial theorems: memberships for which the majorities need not overlap, and invited servers that have voted before."
  },
  {
   "property": "C85",
   "status": "partial",
   "theorems": [
    "C85_overwrite_keeps_below_partial",
    "C85_overwrite_last_partial",
    "C85_compact_shifts",
    "C85_compact_all_loses",
    "C85_overwrite_mixes_refuted",
    "C85_overwrite_stale_refuted",
    "C85_pack_mixes_refuted",
    "C85_compact_moves_refuted"
   ],
   "note": "Overwriting keeps every entry below the index at every stage, and is atomic for the last entry when the new one is not shorter. Otherwise false: entries nobody wrote, stale bytes behind the new entry; compaction can shift all indices (general theorem), lose everything (general theorem) or leave a folder that cannot be opened; the backups it writes are never read. For half-written records see C96."
  },
  {
   "property": "C86",
   "status": "partial",
   "theorems": [
    "C86_catches_up",
    "C86_commit_wakes",
    "C86_window_partial",
    "C86_lost_refuted"
   ],
   "note": "Refuted: commit() notifies without holding commit_lock_, so a notification between the test and the wait of the commit thread is lost and the entry stays unapplied until the next commit. Proved: outside that window sleeping means nothing is unapplied; a commit that finds the thread asleep wakes it; awake it applies everything in order."
  },
  {
   "property": "C87",
   "status": "partial",
   "theorems": [
    "C87_locks",
    "C87_gets_in",
    "C87_waits_partial",
    "C87_waits_refuted",
    "C87_returns",
    "C87_hangs_refuted",
    "C87_deadlock_refuted"
   ],
   "note": "Refuted: the destructor returns exactly if its notification finds the commit thread asleep or just woken (C87_returns, C87_hangs_refuted; a thread that is already leaving may go either way); it deadlocks with a commit thread that needs lock_ for a configuration; a spurious wake-up lets it return early."
  },
  {
   "property": "C88",
   "status": "partial",
   "theorems": [
    "C88_in_order_partial",
    "C88_index_refuted",
    "C88_uncommitted_refuted",
    "C88_conf_refuted"
   ],
   "note": "Refuted when a snapshot is installed while entries are applied; proved for all interleavings in which the two do not overlap."
  },
  {
   "property": "C89",
   "status": "partial",
   "theorems": [
    "C89_no_deadlock",
    "C89_exclusive",
    "C89_read_twice_refuted"
   ],
   "note": "Proved for all threads except the destructor; C89_read_twice_refuted: a thread takes the peer-set lock shared twice, which the C++ standard forbids."
  },
  {
   "property": "C90",
   "status": "partial",
   "theorems": [
    "C90_catches_up_partial",
    "C90_lost_answer",
    "C90_other_entries_refuted",
    "C90_started_again_refuted",
    "C90_applies_other_refuted"
   ],
   "note": "Proved for a server whose entries, if any, are the leader's (an empty log in particular): catch-up in at most as many round trips as entries are missing, the log and the commit index then, repetition of a request. Refuted: entries the server already had are never compared and are taken for committed with the first pack; a server restarted in between refuses the pack and the leader's handler throws. The snapshot part of the exchange is C60."
  },
  {
   "property": "C91",
   "status": "partial",
   "theorems": [
    "C91_same_partial",
    "C91_unknown_request_refuted",
    "C91_any_bytes_refuted",
    "C91_wrong_answer_refuted",
    "C91_own_term_refuted",
    "C91_answers_partial",
    "C91_sends_partial",
    "C91_always_answered_partial"
   ],
   "note": "False of the code: a request with a type that is no request type ends the process (for safety, step down) or, from 20 on, reads past the table of names; an answer of a type the handler does not expect ends the process; so does an append or snapshot request that carries a leader's own term. Proved: among servers that run this code the types always fit, and three kinds of requests are always answered."
  },
  {
   "property": "C92",
   "status": "partial",
   "theorems": [
    "C92_in_order",
    "C92_reads",
    "C92_keeps_accepting",
    "C92_accepts_none_after_stop",
    "C92_stop_refuted",
    "C92_late_session_refuted",
    "C92_handler"
   ],
   "note": "False for stop: open connections go on handing requests to the handler, any number of them, and a connection accepted just before stop is served after stop has returned. Proved: order and pairing of requests and answers on every connection, reading exactly when a request is complete, the accept loop never dying before stop, no accept after it, the handler being the one given to listen."
  },
  {
   "property": "C93",
   "status": "proved",
   "theorems": [
    "C93_round",
    "C93_every_request",
    "C93_alone",
    "C93_applied"
   ],
   "note": "The exchange starts from a leader that has its log committed, is in contact with its members and has nothing on its way to the members that will answer (`ready`), and members that have its last entry (`follows`); the theorem gives the same back, and an example reaches it from a cold start. Members that lack entries are C82's; a message that is lost is sent again with the next heartbeat (C47). Requests that arrive while one is on its way are not covered here."
  },
  {
   "property": "C94",
   "status": "partial",
   "theorems": [
    "C94_second_add_refuted",
    "C94_superseded_refuted",
    "C94_gives_up_partial",
    "C94_next_partial",
    "C94_forgets_change_refuted",
    "C94_snapshot_lost_refuted",
    "C94_left_out_refuted"
   ],
   "note": "Proved: a server that never answers is given up after a bounded number of attempts with nothing else changed (C94_gives_up_partial), and the next can be added (C94_next_partial). Refuted, each for every state: a second add request replaces the first server, whose outstanding answer is then handed to freed memory whenever it arrives (C94_second_add_refuted); so does a message of a higher term (C94_superseded_refuted); giving up also forgets another change that is not committed (C94_forgets_change_refuted); one failure while a snapshot is sent leaves the addition hanging (C94_snapshot_lost_refuted); a removal agreed while the addition is not applied leaves the new server out (C94_left_out_refuted). The success path is C90."
  },
  {
   "property": "C95",
   "status": "partial",
   "theorems": [
    "C95_alone",
    "C95_linear_partial",
    "C95_compact_entry_refuted",
    "C95_overwrite_entry_refuted",
    "C95_append_entry_refuted",
    "C95_last_refuted",
    "C95_term_refuted",
    "C95_range_refuted",
    "C95_range_shifted_refuted"
   ],
   "note": "Proved: every interleaving without an 'unlucky' step is linearizable (C95_linear_partial; the unlucky steps are listed in the definition unlucky). Refuted for every store: an entry that is kept by a compaction, overwritten or appended meanwhile makes entry_at throw and the store takes no more entries until it is compacted or opened again (C95_compact_entry_refuted, C95_overwrite_entry_refuted, C95_append_entry_refuted; the commit thread reads without the server lock, so a snapshot that completes meanwhile can end the process); last_entry answers the dummy entry and term_at 0 during a compaction; log_entries reads outside the cache (undefined behaviour) or hands out entries under wrong indices."
  },
  {
   "property": "C96",
   "status": "partial",
   "theorems": [
    "C96_append",
    "C96_overwrite_keeps_below_partial",
    "C96_start_torn",
    "C96_first_start",
    "C96_cut_refuted",
    "C96_start_refuted"
   ],
   "note": "Proved for every number of bytes: what a torn append leaves (C96_append), that a torn overwrite keeps every entry below (C96_overwrite_keeps_below_partial), where a torn start index lets the log begin (C96_start_torn), and when a torn first start can be repeated (C96_first_start). Refuted: after a crash an entry can be there with its data cut short, for every history and every entry with data (C96_cut_refuted); a torn start index moves the whole log (C96_start_refuted). Torn apply_pack over existing entries and torn moves of compact are in the model (apply_pack) or not (compact's data move) but not proved about."
  },
  {
   "property": "C97",
   "status": "partial",
   "theorems": [
    "C97_append_counts_refuted",
    "C97_append_write_refuted",
    "C97_compact_lost_refuted",
    "C97_no_backup_partial",
    "C97_stays_partial"
   ],
   "note": "False. append: an error while flushing is reported, but the store counts the entry and answers with it although no start ever finds it (C97_append_counts_refuted); an error while writing leaves the store's answers, but the folder cannot be opened any more or has the entry cut short (C97_append_write_refuted). compact: any error after the backups are made loses the whole log, because the code that restores it empties the backup of the data file (C97_compact_lost_refuted, every history). Proved: without backups compact refuses and changes nothing (C97_no_backup_partial); if log.data cannot be removed the log is restored (C97_stays_partial). Errors inside write_at, apply_pack and the constructor are not modelled."
  },
  {
   "property": "C98",
   "status": "partial",
   "theorems": [
    "C98_on_files_partial",
    "C98_restart_refuted",
    "C98_commit_refuted"
   ],
   "note": "C98_on_files_partial: every life on the files is a life of the server on the indexed log, all answers agree, every stop or crash leaves a folder that opens with the server's log; needs the conditions ops_ok of C14 (sizes, non-empty packs, no overwriting of uncached indices, no replacing of the last entry by a shorter one). C98_restart_refuted (for every such life): without the last condition the restarted server has the new entry with the end of the old one; C98_commit_refuted: it commits it. Crashes inside a store call: C21, C85, C96."
  },
  {
   "property": "C99",
   "status": "partial",
   "theorems": [
    "C99_on_files_partial",
    "C99_log_matching_partial",
    "C99_same_entry_partial",
    "C99_same_entry_refuted"
   ],
   "note": "C99_on_files_partial: every run on files is a run of the cluster on indexed logs and every store answers as its server's log, under C14's conditions on the calls of each store (stores_okay); C99_log_matching_partial and C99_same_entry_partial carry over C36 and C38. C99_same_entry_refuted: without them an uncommitted last entry overwritten by a shorter one of the next leader, and a restart, make two servers apply different entries of the same term at index 2. The schedule does not use the counting of old terms that refutes C38. Crashes inside a store call are not steps here (C21, C85, C96)."
  },
  {
   "property": "C100",
   "status": "proved",
   "theorems": [
    "C100_bounded",
    "C100_no_wrap",
    "C100_sharp"
   ],
   "note": "C100_bounded for every run with fixed membership (snapshots and crashes included), C100_no_wrap for 64 bits, C100_sharp shows the bound on terms is attained for every k. Not covered: offsets into snapshots and their sizes, numbers inside configurations, joining and leaving servers; a forged message with term 2^64 - 1 is outside the cluster model."
  },
  {
   "property": "C101",
   "status": "proved",
   "theorems": [
    "C101_first_few_arrive",
    "C101_bytes_make_no_difference",
    "C101_every_run_in_bytes",
    "C101_messages_name_servers",
    "C101_one_leader_in_bytes",
    "C101_same_entry_in_bytes"
   ],
   "note": "C101_bytes_make_no_difference is the refinement, C101_every_run_in_bytes the converse for runs whose requests carry at most 16 MiB (C12), C101_first_few_arrive the statement about one connection, C101_messages_name_servers about ids. Assumed: an answer to a piece of a snapshot names an offset below 2^64 (pieces_fit). Not covered: two requests written to one connection at the same time, bytes from other programs (C13)."
  },
  {
   "property": "C102",
   "status": "partial",
   "theorems": [
    "C102_full_stack_partial",
    "C102_one_leader_partial",
    "C102_log_matching_partial",
    "C102_same_entry_partial",
    "C102_same_entry_refuted"
   ],
   "note": "C102_full_stack_partial is the refinement; C102_one_leader_partial, C102_log_matching_partial (no snapshots) and C102_same_entry_partial its consequences. Partial because stores_okay excludes an overwrite of another length: C102_same_entry_refuted shows that without it two servers apply different bytes at one index and term, as C99_same_entry_refuted does. Crashes fall between calls of the store; within calls see C21, C85, C96."
  },
  {
   "property": "C103",
   "status": "partial",
   "theorems": [
    "C103_listener_partial",
    "C103_joins_unheard_refuted"
   ],
   "note": "C103_listener_partial for servers without pre-votes (the default) that are not asked to join a cluster. Refuted for every leader that is asked to join one (C103_joins_unheard_refuted): handle_join_cluster_req sets the role without calling the listener; a new server started on its own elects itself first, so this is the usual way to join (C103_joins_unheard_example). logs_catch_up, told by the commit thread, is not covered: Committer.v has the step but no claim about it."
  },
  {
   "property": "C104",
   "status": "proved",
   "theorems": [
    "C104_can_lead",
    "C104_elects_again"
   ],
   "note": "The theorem says that a way to a leader exists from every reachable state, not that timers find it. The chosen server is started anew in the continuation built, so a leader with an old term need not first hear of a newer one. Pre-votes of the chosen server are off and no server takes snapshots (with compacted logs votes are granted otherwise: C28)."
  },
  {
   "property": "C105",
   "status": "proved",
   "theorems": [
    "C105_commits_at",
    "C105_can_commit",
    "C105_applies"
   ],
   "note": "The theorem says that a way exists from every reachable state, not that the timers find it; the client's request arrives when the clock shows the time of the last answer of a majority. Applying asks that the leader's state machine is not ahead of its log in the state one starts from: a history in which committed entries are lost (C38) can break that. Pre-votes of the leader are off, it may send at least one entry per request, and no server takes snapshots."
  },
  {
   "property": "C106",
   "status": "partial",
   "theorems": [
    "C106_keeps_running_partial",
    "C106_no_exit_partial",
    "C106_heartbeat_exits_refuted",
    "C106_keeps_running_refuted"
   ],
   "note": "Refuted as stated: handle_peer_resp does not check that an answer belongs to the present term, so an acknowledgement from an earlier term sets the follower's next index beyond the end of the leader's log, and create_append_entries_req then calls system_exit(-1) (C106_heartbeat_exits_refuted for every such state, C106_keeps_running_refuted for a run of five servers that reaches one). Proved: in every run in which acknowledgements of earlier terms are not handled and the election timer, stopped on becoming leader, does not fire at a leader (C24 has the race), every event of every server ends normally (C106_keeps_running_partial) and no server ever asks to be ended (C106_no_exit_partial). Missing: changing membership and snapshots."
  },
  {
   "property": "C107",
   "status": "partial",
   "theorems": [
    "C107_stored",
    "C107_at_its_place",
    "C107_kept",
    "C107_can_be_lost_refuted",
    "C107_accepted_refuted"
   ],
   "note": "The last part (what is applied at the index is the client's entry) is false: the leader answers before any other server has stored the entry (refuted, in general and by a run). Proved for all runs: the entries are stored at their indexes, no other entry of the term is ever there, and the accepting server loses one only to a leader of a later term. Fixed membership, no snapshots."
  },
  {
   "property": "C108",
   "status": "partial",
   "theorems": [
    "C108_later_leaders",
    "C108_kept",
    "C108_every_majority",
    "C108_can_be_committed",
    "C108_applied_partial",
    "C108_applied_refuted"
   ],
   "note": "All parts but the last are proved for every run. The last (no server applies anything else) is false because a leader counts copies of entries of earlier terms (refuted); proved for runs in which commit indexes are moved by the rules of the Raft paper (C108_applied_partial). Fixed membership, no snapshots; committing again is shown with pre-votes off."
  },
  {
   "property": "C109",
   "status": "partial",
   "theorems": [
    "C109_rest_is_for_ever",
    "C109_timer_runs_partial",
    "C109_never_at_rest_partial",
    "C109_rest_refuted",
    "C109_all_pre_votes_refuted"
   ],
   "note": "True only without pre-votes: then a running server that does not lead always has its election timer running (C109_timer_runs_partial), so no reachable state is at rest. With pre-votes it is refuted: the election timeout stops the timer and sends pre-vote requests, a failed pre-vote request restarts nothing, and the pre-vote state is not cleared, so a short network outage at the start leaves all servers as followers for ever (C109_rest_refuted for three servers, C109_all_pre_votes_refuted for every cluster of two or more servers that use pre-votes, with C109_rest_is_for_ever). Fixed membership and no snapshots."
  },
  {
   "property": "C110",
   "status": "partial",
   "theorems": [
    "C110_can_lead_partial",
    "C110_commits_partial",
    "C110_same_term_partial",
    "C110_support_partial",
    "C110_three_servers_partial",
    "C110_no_support_refuted",
    "C110_at_odds_refuted",
    "C110_elects_refuted"
   ],
   "note": "Refuted: a pre-vote is granted only to a server whose term is at least that of the server asked and whose log is not older, and neither pre-vote requests nor their answers bring a newer term to anybody. Three servers that crashed at bad moments end with the newest log at the smallest term and the oldest log at the greatest term (C110_elects_refuted); from such a state no server ever leads, campaigns, changes its log or accepts a client's request, whatever is delivered and however often servers restart (C110_at_odds_refuted, for clusters of any size; C110_no_support_refuted needs only that no server has, with itself, a majority of servers whose terms are not greater and whose logs are not newer). Without pre-votes a way to a leader exists from every reachable state (C104). Fixed membership, no snapshots; the witness has the defensive mode of pre-votes off, with which even more is refused. What holds: if one server of a majority has both a log no older and a term no smaller than the others of that majority, and those of them in defensive mode use pre-votes too, some continuation makes it leader with its log kept (C110_can_lead_partial). So a majority whose servers are in one term can always elect a leader (C110_same_term_partial), and where all servers use pre-votes the states of C110_no_support_refuted are the only obstacle: every other reachable state can elect a leader (C110_support_partial; C110_three_servers_partial for two or three servers). A leader elected in this way takes and commits a client's request (C110_commits_partial)."
  },
  {
   "property": "C111",
   "status": "partial",
   "theorems": [
    "C111_cut_off_partial",
    "C111_disturbs_nobody_partial",
    "C111_in_cluster_partial"
   ],
   "note": "Proved for followers that have applied what they know to be committed, whose log has not been compacted and that have no calls to joining or leaving servers under way (follows_with, alone). C111_disturbs_nobody_partial: any server that gets one of its requests, in any state, is left as it was. C111_in_cluster_partial says the same from every reachable state of a cluster with fixed membership and no snapshots, whatever the other servers do meanwhile. The examples show the run of C111_example with the term raised when pre-votes are off, and two servers electing a leader while the third is cut off."
  }
 ]
}