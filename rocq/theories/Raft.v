(** * Raft: the server, src/raft_server.cxx, src/raft_server_req_handlers.cxx,
      src/raft_server_resp_handlers.cxx and src/peer.cxx

    One [node] is one raft_server object together with what survives a crash of
    its process ([disk]).  Every function of the C++ code is a function here,
    in a monad that keeps the state changes made before an exception, an exit of
    the process or undefined behaviour, and records every externally visible
    action in order.

    Simplifications (all of them also listed in DESIGN.md):
    - each handler runs atomically: the handlers hold lock_; commit_in_bg,
      replicate_log and create_append_entries_req release it in between, which is
      not modelled;
    - state_mgr::system_exit does not return (the process ends);
    - indices and terms do not overflow 64 bits, except for the subtractions
      written with [pred64]/[sub64] (C100 proves that they do not in a cluster);
    - the log store is the indexed log that C14 proves fs_log_store to be
      (FsLogSpec.v), including its exceptions; it writes synchronously;
    - std::unordered_map iterates in the order of insertion (no theorem depends
      on an order);
    - log output, event listener and condition variables are left out;
    - entries are values: the read position inside a shared payload buffer and
      the cookie of an entry are not modelled. *)

From Verif Require Import Base Buffer Codec CodecSpec Msg FsLogStore FsLogSpec.
Local Open Scope N_scope.

Definition pred64 (a : N) : N := if a =? 0 then two64 - 1 else a - 1.
Definition sub64 (a b : N) : N := if b <=? a then a - b else two64 + a - b.

(** include/msg_type.hxx:22-43 *)
Definition vote_request : byte := x01.
Definition vote_response : byte := x02.
Definition append_entries_request : byte := x03.
Definition append_entries_response : byte := x04.
Definition client_request : byte := x05.
Definition add_server_request : byte := x06.
Definition add_server_response : byte := x07.
Definition remove_server_request : byte := x08.
Definition remove_server_response : byte := x09.
Definition sync_log_request : byte := x0a.
Definition sync_log_response : byte := x0b.
Definition join_cluster_request : byte := x0c.
Definition join_cluster_response : byte := x0d.
Definition leave_cluster_request : byte := x0e.
Definition leave_cluster_response : byte := x0f.
Definition install_snapshot_request : byte := x10.
Definition install_snapshot_response : byte := x11.
Definition prevote_request : byte := x12.
Definition prevote_response : byte := x13.

(** include/log_val_type.hxx:22-29 *)
Definition app_log : byte := x01.
Definition conf_log : byte := x02.
Definition cluster_server : byte := x03.
Definition log_pack : byte := x04.
Definition snp_sync_req : byte := x05.

Definition beq (a b : byte) : bool := Byte.eqb a b.
Notation req := (req_msg entry_val).

(** ** Payloads (Codec.v) on plain bytes *)
Definition junk0 : nat -> byte := fun _ => x00.
(** a buffer holding [bs], positioned at 0 *)
Definition buffer_of (bs : list byte) : res block :=
  res_bind (alloc junk0 (lenN bs)) (fun b => stream_in b bs).
Definition parse {A} (m : BM A) (bs : list byte) : res A :=
  res_bind (buffer_of bs) (fun b => fst (m b)).
Definition parse_cfg : list byte -> res cluster_config := parse cfg_deserialize.
Definition parse_srv : list byte -> res srv_config := parse srv_deserialize.
Definition parse_int : list byte -> res Z := parse get_int.
Record sync_val := mkSyncV { sv_snp : snapshot; sv_offset : N; sv_data : list byte; sv_done : bool }.
Definition parse_sync (bs : list byte) : res sync_val :=
  res_bind (parse (sync_deserialize junk0) bs) (fun q =>
  res_bind (stream_out (sy_data q)) (fun d => Ok (mkSyncV (sy_snapshot q) (sy_offset q) d (sy_done q)))).

(** the log entry holding a configuration *)
Definition conf_entry (term : N) (c : cluster_config) : entry_val := mkEV term conf_log (cfg_bytes c).

(** include/cluster_config.hxx:51-55, :67-78 *)
Definition cfg_set_log_idx (i : N) (c : cluster_config) : cluster_config := mkCfg i (cc_log_idx c) (cc_servers c).
Definition cfg_server (c : cluster_config) (id : Z) : option srv_config :=
  find (fun s => (sc_id s =? id)%Z) (cc_servers c).

(** entries of a log pack (format: src/fs_log_store.cxx:515-565), cut at the
    stored offsets *)
Fixpoint offsets (n : nat) (bs : list byte) : list N :=
  match n with O => [] | S n => of_le (firstn 8 bs) :: offsets n (skipn 8 bs) end.
Fixpoint cut_entries (os : list N) (data : list byte) : res (list entry_val) :=
  match os with
  | [] => Ok []
  | [_] => res_bind (dec_entry data) (fun e => Ok [e])
  | o :: ((o' :: _) as os') =>
      res_bind (dec_entry (firstn (N.to_nat (o' - o)) data)) (fun e =>
      res_bind (cut_entries os' (skipn (N.to_nat (o' - o)) data)) (fun es => Ok (e :: es)))
  end.
Definition unpack (pk : list byte) : res (list entry_val) :=
  if lenN pk <? 16 then Throw OverflowError
  else
    let idx_len := Z.to_N (to_int32 (Z.of_N (of_le (firstn 4 pk)))) in
    let rest := skipn 8 pk in
    if lenN rest <? idx_len then UB OutOfBoundsRead
    else cut_entries (offsets (N.to_nat (idx_len / 8)) rest) (skipn (N.to_nat idx_len) rest).

(** ** State *)

(** include/raft_params.hxx:29-43, :195-206 *)
Record params := mkParams {
  pm_el_upper : Z; pm_el_lower : Z; pm_hb : Z; pm_backoff : Z;
  pm_sync_batch : Z; pm_sync_gap : Z; pm_snp_distance : N; pm_block_size : Z;
  pm_max_append : N; pm_reserved : N; pm_prevote : bool; pm_defensive : bool }.
(** include/raft_params.hxx:189-192 *)
Definition max_hb (p : params) : Z := Z.max (pm_hb p) (pm_el_lower p - pm_hb p / 2)%Z.

(** include/srv_role.hxx *)
Inductive role := Follower | Candidate | Leader.

(** include/peer.hxx:26-216.  [p_uid] identifies the object, [p_sync] is the
    snapshot sync context (snapshot and offset), [p_hb_sched] says whether the
    heartbeat task is scheduled. *)
Record peer := mkPeer {
  p_uid : N; p_cfg : srv_config; p_next : N; p_match : N; p_busy : bool; p_pending : bool;
  p_hb_on : bool; p_hb_sched : bool; p_hb_cur : Z; p_last_resp : N; p_sync : option (snapshot * N) }.
Definition p_id (p : peer) : Z := sc_id (p_cfg p).

(** include/peer.hxx:29-48 *)
Definition new_peer (uid : N) (c : srv_config) (pm : params) : peer :=
  mkPeer uid c 0 0 false false false false (pm_hb pm) 0 None.

Definition p_set_next (v : N) (p : peer) : peer :=
  mkPeer (p_uid p) (p_cfg p) v (p_match p) (p_busy p) (p_pending p) (p_hb_on p) (p_hb_sched p) (p_hb_cur p) (p_last_resp p) (p_sync p).
Definition p_set_match (v : N) (p : peer) : peer :=
  mkPeer (p_uid p) (p_cfg p) (p_next p) v (p_busy p) (p_pending p) (p_hb_on p) (p_hb_sched p) (p_hb_cur p) (p_last_resp p) (p_sync p).
Definition p_set_busy (v : bool) (p : peer) : peer :=
  mkPeer (p_uid p) (p_cfg p) (p_next p) (p_match p) v (p_pending p) (p_hb_on p) (p_hb_sched p) (p_hb_cur p) (p_last_resp p) (p_sync p).
Definition p_set_pending (v : bool) (p : peer) : peer :=
  mkPeer (p_uid p) (p_cfg p) (p_next p) (p_match p) (p_busy p) v (p_hb_on p) (p_hb_sched p) (p_hb_cur p) (p_last_resp p) (p_sync p).
Definition p_set_hb (on sched : bool) (p : peer) : peer :=
  mkPeer (p_uid p) (p_cfg p) (p_next p) (p_match p) (p_busy p) (p_pending p) on sched (p_hb_cur p) (p_last_resp p) (p_sync p).
Definition p_set_cur (v : Z) (p : peer) : peer :=
  mkPeer (p_uid p) (p_cfg p) (p_next p) (p_match p) (p_busy p) (p_pending p) (p_hb_on p) (p_hb_sched p) v (p_last_resp p) (p_sync p).
Definition p_set_last_resp (v : N) (p : peer) : peer :=
  mkPeer (p_uid p) (p_cfg p) (p_next p) (p_match p) (p_busy p) (p_pending p) (p_hb_on p) (p_hb_sched p) (p_hb_cur p) v (p_sync p).
Definition p_set_sync (v : option (snapshot * N)) (p : peer) : peer :=
  mkPeer (p_uid p) (p_cfg p) (p_next p) (p_match p) (p_busy p) (p_pending p) (p_hb_on p) (p_hb_sched p) (p_hb_cur p) (p_last_resp p) v.
(** include/peer.hxx:161-169 *)
Definition p_slow_down (pm : params) (p : peer) : peer := p_set_cur (Z.min (max_hb pm) (p_hb_cur p + pm_backoff pm)%Z) p.
Definition p_resume (pm : params) (p : peer) : peer := p_set_cur (pm_hb pm) p.
(** include/peer.hxx:93-100 *)
Definition p_disable_hb (p : peer) : peer := p_set_hb false false p.

(** What survives a crash: what state_mgr keeps (state and configuration), the
    log, and the application: the index it committed last, its snapshot and the
    bytes of that snapshot (include/state_mgr.hxx, include/state_machine.hxx). *)
Record disk := mkDisk {
  dk_state : option (N * Z); dk_config : cluster_config; dk_log : alog;
  dk_commit : N; dk_snp : option snapshot; dk_snp_data : list byte }.

(** include/raft_server.hxx:116-156 *)
Record node := mkNode {
  n_id : Z (* id_ *);
  n_prm : params (* *ctx_->params_ *);
  n_role : role (* role_ *);
  n_leader : Z (* leader_ *);
  n_term : N (* state_->term_ *);
  n_vote : Z (* state_->voted_for_ *);
  n_votes : Z (* votes_granted_ *);
  n_voted : list Z (* voted_servers_ *);
  n_done : bool (* election_completed_ *);
  n_prevote : option (Z * list Z) (* prevote_state_: accepted votes, voted servers *);
  n_changing : bool (* config_changing_ *);
  n_catching : bool (* catching_up_ *);
  n_steps : Z (* steps_to_down_ *);
  n_quick : N (* quick_commit_idx_ *);
  n_smc : N (* sm_commit_index_ *);
  n_peers : list peer (* peers_ *);
  n_config : cluster_config (* config_ *);
  n_join : option peer (* srv_to_join_ *);
  n_to_add : option srv_config (* conf_to_add_ *);
  n_snp : option snapshot (* last_snapshot_ *);
  n_snp_busy : bool (* snp_in_progress_ *);
  n_timer : bool (* the election timer is running *);
  n_elapsed : Z (* the static time_elasped_since_quorum_resp of is_leader *);
  n_uid : N (* number of peer objects created so far *);
  n_clients : list (Z * list byte) (* rpc_clients_: the server, and the endpoint its client was created for *);
  n_disk : disk (* what survives a crash *) }.

Definition set_role (v : role) (n : node) : node :=
  mkNode (n_id n) (n_prm n) v (n_leader n) (n_term n) (n_vote n) (n_votes n) (n_voted n) (n_done n) (n_prevote n) (n_changing n) (n_catching n) (n_steps n) (n_quick n) (n_smc n) (n_peers n) (n_config n) (n_join n) (n_to_add n) (n_snp n) (n_snp_busy n) (n_timer n) (n_elapsed n) (n_uid n) (n_clients n) (n_disk n).
Definition set_leader (v : Z) (n : node) : node :=
  mkNode (n_id n) (n_prm n) (n_role n) v (n_term n) (n_vote n) (n_votes n) (n_voted n) (n_done n) (n_prevote n) (n_changing n) (n_catching n) (n_steps n) (n_quick n) (n_smc n) (n_peers n) (n_config n) (n_join n) (n_to_add n) (n_snp n) (n_snp_busy n) (n_timer n) (n_elapsed n) (n_uid n) (n_clients n) (n_disk n).
Definition set_term (v : N) (n : node) : node :=
  mkNode (n_id n) (n_prm n) (n_role n) (n_leader n) v (n_vote n) (n_votes n) (n_voted n) (n_done n) (n_prevote n) (n_changing n) (n_catching n) (n_steps n) (n_quick n) (n_smc n) (n_peers n) (n_config n) (n_join n) (n_to_add n) (n_snp n) (n_snp_busy n) (n_timer n) (n_elapsed n) (n_uid n) (n_clients n) (n_disk n).
Definition set_vote (v : Z) (n : node) : node :=
  mkNode (n_id n) (n_prm n) (n_role n) (n_leader n) (n_term n) v (n_votes n) (n_voted n) (n_done n) (n_prevote n) (n_changing n) (n_catching n) (n_steps n) (n_quick n) (n_smc n) (n_peers n) (n_config n) (n_join n) (n_to_add n) (n_snp n) (n_snp_busy n) (n_timer n) (n_elapsed n) (n_uid n) (n_clients n) (n_disk n).
Definition set_votes (v : Z) (n : node) : node :=
  mkNode (n_id n) (n_prm n) (n_role n) (n_leader n) (n_term n) (n_vote n) v (n_voted n) (n_done n) (n_prevote n) (n_changing n) (n_catching n) (n_steps n) (n_quick n) (n_smc n) (n_peers n) (n_config n) (n_join n) (n_to_add n) (n_snp n) (n_snp_busy n) (n_timer n) (n_elapsed n) (n_uid n) (n_clients n) (n_disk n).
Definition set_voted (v : list Z) (n : node) : node :=
  mkNode (n_id n) (n_prm n) (n_role n) (n_leader n) (n_term n) (n_vote n) (n_votes n) v (n_done n) (n_prevote n) (n_changing n) (n_catching n) (n_steps n) (n_quick n) (n_smc n) (n_peers n) (n_config n) (n_join n) (n_to_add n) (n_snp n) (n_snp_busy n) (n_timer n) (n_elapsed n) (n_uid n) (n_clients n) (n_disk n).
Definition set_done (v : bool) (n : node) : node :=
  mkNode (n_id n) (n_prm n) (n_role n) (n_leader n) (n_term n) (n_vote n) (n_votes n) (n_voted n) v (n_prevote n) (n_changing n) (n_catching n) (n_steps n) (n_quick n) (n_smc n) (n_peers n) (n_config n) (n_join n) (n_to_add n) (n_snp n) (n_snp_busy n) (n_timer n) (n_elapsed n) (n_uid n) (n_clients n) (n_disk n).
Definition set_prevote (v : option (Z * list Z)) (n : node) : node :=
  mkNode (n_id n) (n_prm n) (n_role n) (n_leader n) (n_term n) (n_vote n) (n_votes n) (n_voted n) (n_done n) v (n_changing n) (n_catching n) (n_steps n) (n_quick n) (n_smc n) (n_peers n) (n_config n) (n_join n) (n_to_add n) (n_snp n) (n_snp_busy n) (n_timer n) (n_elapsed n) (n_uid n) (n_clients n) (n_disk n).
Definition set_changing (v : bool) (n : node) : node :=
  mkNode (n_id n) (n_prm n) (n_role n) (n_leader n) (n_term n) (n_vote n) (n_votes n) (n_voted n) (n_done n) (n_prevote n) v (n_catching n) (n_steps n) (n_quick n) (n_smc n) (n_peers n) (n_config n) (n_join n) (n_to_add n) (n_snp n) (n_snp_busy n) (n_timer n) (n_elapsed n) (n_uid n) (n_clients n) (n_disk n).
Definition set_catching (v : bool) (n : node) : node :=
  mkNode (n_id n) (n_prm n) (n_role n) (n_leader n) (n_term n) (n_vote n) (n_votes n) (n_voted n) (n_done n) (n_prevote n) (n_changing n) v (n_steps n) (n_quick n) (n_smc n) (n_peers n) (n_config n) (n_join n) (n_to_add n) (n_snp n) (n_snp_busy n) (n_timer n) (n_elapsed n) (n_uid n) (n_clients n) (n_disk n).
Definition set_steps (v : Z) (n : node) : node :=
  mkNode (n_id n) (n_prm n) (n_role n) (n_leader n) (n_term n) (n_vote n) (n_votes n) (n_voted n) (n_done n) (n_prevote n) (n_changing n) (n_catching n) v (n_quick n) (n_smc n) (n_peers n) (n_config n) (n_join n) (n_to_add n) (n_snp n) (n_snp_busy n) (n_timer n) (n_elapsed n) (n_uid n) (n_clients n) (n_disk n).
Definition set_quick (v : N) (n : node) : node :=
  mkNode (n_id n) (n_prm n) (n_role n) (n_leader n) (n_term n) (n_vote n) (n_votes n) (n_voted n) (n_done n) (n_prevote n) (n_changing n) (n_catching n) (n_steps n) v (n_smc n) (n_peers n) (n_config n) (n_join n) (n_to_add n) (n_snp n) (n_snp_busy n) (n_timer n) (n_elapsed n) (n_uid n) (n_clients n) (n_disk n).
Definition set_smc (v : N) (n : node) : node :=
  mkNode (n_id n) (n_prm n) (n_role n) (n_leader n) (n_term n) (n_vote n) (n_votes n) (n_voted n) (n_done n) (n_prevote n) (n_changing n) (n_catching n) (n_steps n) (n_quick n) v (n_peers n) (n_config n) (n_join n) (n_to_add n) (n_snp n) (n_snp_busy n) (n_timer n) (n_elapsed n) (n_uid n) (n_clients n) (n_disk n).
Definition set_peers (v : list peer) (n : node) : node :=
  mkNode (n_id n) (n_prm n) (n_role n) (n_leader n) (n_term n) (n_vote n) (n_votes n) (n_voted n) (n_done n) (n_prevote n) (n_changing n) (n_catching n) (n_steps n) (n_quick n) (n_smc n) v (n_config n) (n_join n) (n_to_add n) (n_snp n) (n_snp_busy n) (n_timer n) (n_elapsed n) (n_uid n) (n_clients n) (n_disk n).
Definition set_config (v : cluster_config) (n : node) : node :=
  mkNode (n_id n) (n_prm n) (n_role n) (n_leader n) (n_term n) (n_vote n) (n_votes n) (n_voted n) (n_done n) (n_prevote n) (n_changing n) (n_catching n) (n_steps n) (n_quick n) (n_smc n) (n_peers n) v (n_join n) (n_to_add n) (n_snp n) (n_snp_busy n) (n_timer n) (n_elapsed n) (n_uid n) (n_clients n) (n_disk n).
Definition set_join (v : option peer) (n : node) : node :=
  mkNode (n_id n) (n_prm n) (n_role n) (n_leader n) (n_term n) (n_vote n) (n_votes n) (n_voted n) (n_done n) (n_prevote n) (n_changing n) (n_catching n) (n_steps n) (n_quick n) (n_smc n) (n_peers n) (n_config n) v (n_to_add n) (n_snp n) (n_snp_busy n) (n_timer n) (n_elapsed n) (n_uid n) (n_clients n) (n_disk n).
Definition set_to_add (v : option srv_config) (n : node) : node :=
  mkNode (n_id n) (n_prm n) (n_role n) (n_leader n) (n_term n) (n_vote n) (n_votes n) (n_voted n) (n_done n) (n_prevote n) (n_changing n) (n_catching n) (n_steps n) (n_quick n) (n_smc n) (n_peers n) (n_config n) (n_join n) v (n_snp n) (n_snp_busy n) (n_timer n) (n_elapsed n) (n_uid n) (n_clients n) (n_disk n).
Definition set_snp (v : option snapshot) (n : node) : node :=
  mkNode (n_id n) (n_prm n) (n_role n) (n_leader n) (n_term n) (n_vote n) (n_votes n) (n_voted n) (n_done n) (n_prevote n) (n_changing n) (n_catching n) (n_steps n) (n_quick n) (n_smc n) (n_peers n) (n_config n) (n_join n) (n_to_add n) v (n_snp_busy n) (n_timer n) (n_elapsed n) (n_uid n) (n_clients n) (n_disk n).
Definition set_snp_busy (v : bool) (n : node) : node :=
  mkNode (n_id n) (n_prm n) (n_role n) (n_leader n) (n_term n) (n_vote n) (n_votes n) (n_voted n) (n_done n) (n_prevote n) (n_changing n) (n_catching n) (n_steps n) (n_quick n) (n_smc n) (n_peers n) (n_config n) (n_join n) (n_to_add n) (n_snp n) v (n_timer n) (n_elapsed n) (n_uid n) (n_clients n) (n_disk n).
Definition set_timer (v : bool) (n : node) : node :=
  mkNode (n_id n) (n_prm n) (n_role n) (n_leader n) (n_term n) (n_vote n) (n_votes n) (n_voted n) (n_done n) (n_prevote n) (n_changing n) (n_catching n) (n_steps n) (n_quick n) (n_smc n) (n_peers n) (n_config n) (n_join n) (n_to_add n) (n_snp n) (n_snp_busy n) v (n_elapsed n) (n_uid n) (n_clients n) (n_disk n).
Definition set_elapsed (v : Z) (n : node) : node :=
  mkNode (n_id n) (n_prm n) (n_role n) (n_leader n) (n_term n) (n_vote n) (n_votes n) (n_voted n) (n_done n) (n_prevote n) (n_changing n) (n_catching n) (n_steps n) (n_quick n) (n_smc n) (n_peers n) (n_config n) (n_join n) (n_to_add n) (n_snp n) (n_snp_busy n) (n_timer n) v (n_uid n) (n_clients n) (n_disk n).
Definition set_uid (v : N) (n : node) : node :=
  mkNode (n_id n) (n_prm n) (n_role n) (n_leader n) (n_term n) (n_vote n) (n_votes n) (n_voted n) (n_done n) (n_prevote n) (n_changing n) (n_catching n) (n_steps n) (n_quick n) (n_smc n) (n_peers n) (n_config n) (n_join n) (n_to_add n) (n_snp n) (n_snp_busy n) (n_timer n) (n_elapsed n) v (n_clients n) (n_disk n).
Definition set_clients (v : list (Z * list byte)) (n : node) : node :=
  mkNode (n_id n) (n_prm n) (n_role n) (n_leader n) (n_term n) (n_vote n) (n_votes n) (n_voted n) (n_done n) (n_prevote n) (n_changing n) (n_catching n) (n_steps n) (n_quick n) (n_smc n) (n_peers n) (n_config n) (n_join n) (n_to_add n) (n_snp n) (n_snp_busy n) (n_timer n) (n_elapsed n) (n_uid n) v (n_disk n).
Definition set_disk (v : disk) (n : node) : node :=
  mkNode (n_id n) (n_prm n) (n_role n) (n_leader n) (n_term n) (n_vote n) (n_votes n) (n_voted n) (n_done n) (n_prevote n) (n_changing n) (n_catching n) (n_steps n) (n_quick n) (n_smc n) (n_peers n) (n_config n) (n_join n) (n_to_add n) (n_snp n) (n_snp_busy n) (n_timer n) (n_elapsed n) (n_uid n) (n_clients n) v.
(** Setters of the record above; the log of a node. *)
Definition n_log (n : node) : alog := dk_log (n_disk n).

(** ** Actions *)
Inductive act :=
| ASaveState (term : N) (vote : Z)                 (* state_mgr::save_state *)
| ASaveConfig (c : cluster_config)                 (* state_mgr::save_config *)
| AAppend (e : entry_val)                          (* log_store::append *)
| AWriteAt (i : N) (e : entry_val)                 (* log_store::write_at *)
| AApplyPack (i : N) (es : list entry_val)         (* log_store::apply_pack *)
| ACompact (i : N)                                 (* log_store::compact *)
| ACommit (i : N) (e : entry_val)                  (* state_machine::commit *)
| APreCommit (i : N) (e : entry_val)               (* state_machine::pre_commit *)
| ARollback (i : N) (e : entry_val)                (* state_machine::rollback *)
| ACreateSnapshot (s : snapshot)                   (* state_machine::create_snapshot *)
| ASnapshotMade (s : snapshot) (data : list byte)  (* the state machine has finished a snapshot *)
| ASaveSnpData (s : snapshot) (off : N) (d : list byte) (* state_machine::save_snapshot_data *)
| AApplySnapshot (s : snapshot)                    (* state_machine::apply_snapshot *)
| ASend (uid : N) (ext : bool) (q : req)           (* peer::send_req; [ext]: with ex_resp_handler_ *)
| AForward (leader : Z) (endpoint : list byte) (q : req) (* send_msg_to_leader over its own rpc client *)
| ABecomeLeader (term : N)                         (* raft_event_listener::on_event(become_leader) *)
| ABecomeFollower                                  (* raft_event_listener::on_event(become_follower) *)
| ARetryLater (uid : N) (q : req)                  (* scheduled call of on_retryable_req_err *)
| ATimer (on : bool)                               (* election timer (re)started / stopped *)
| AHbTimer (id : Z)                                (* heartbeat task scheduled *)
| AExit (code : Z).                                (* state_mgr::system_exit *)

(** effect of an action on what survives a crash.  The application is assumed
    to have committed and applied durably when the call returns, and to return
    from state_machine::last_snapshot a snapshot whose size is that of the
    stored data. *)
Definition disk_apply (d : disk) (a : act) : disk :=
  match a with
  | ASaveState t v => mkDisk (Some (t, v)) (dk_config d) (dk_log d) (dk_commit d) (dk_snp d) (dk_snp_data d)
  | ASaveConfig c => mkDisk (dk_state d) c (dk_log d) (dk_commit d) (dk_snp d) (dk_snp_data d)
  | AAppend e => mkDisk (dk_state d) (dk_config d) (a_replace (dk_log d) (a_next (dk_log d)) [e]) (dk_commit d) (dk_snp d) (dk_snp_data d)
  | AWriteAt i e => mkDisk (dk_state d) (dk_config d) (a_replace (dk_log d) i [e]) (dk_commit d) (dk_snp d) (dk_snp_data d)
  | AApplyPack i es => mkDisk (dk_state d) (dk_config d) (a_replace (dk_log d) i es) (dk_commit d) (dk_snp d) (dk_snp_data d)
  | ACompact i => mkDisk (dk_state d) (dk_config d) (a_compact (dk_log d) i) (dk_commit d) (dk_snp d) (dk_snp_data d)
  | ACommit i _ => mkDisk (dk_state d) (dk_config d) (dk_log d) i (dk_snp d) (dk_snp_data d)
  | ASnapshotMade s data =>
      mkDisk (dk_state d) (dk_config d) (dk_log d) (dk_commit d)
        (Some (mkSnp (sn_last_log_idx s) (sn_last_log_term s) (lenN data) (sn_config s))) data
  | ASaveSnpData s off data =>
      mkDisk (dk_state d) (dk_config d) (dk_log d) (dk_commit d) (dk_snp d) (write_bytes (dk_snp_data d) off data)
  | AApplySnapshot s => mkDisk (dk_state d) (dk_config d) (dk_log d) (sn_last_log_idx s) (Some s) (dk_snp_data d)
  | _ => d
  end.

(** ** The monad *)
Inductive rout (A : Type) := ROk (a : A) | RThrow (e : exn) | RUB (u : ubkind) | RExit.
Arguments ROk {A} a.
Arguments RThrow {A} e.
Arguments RUB {A} u.
Arguments RExit {A}.

Definition M (A : Type) := node -> rout A * node * list act.
Definition ret {A} (a : A) : M A := fun n => (ROk a, n, []).
Definition bind {A B} (m : M A) (f : A -> M B) : M B :=
  fun n => match m n with
           | (ROk a, n1, l1) => let '(r, n2, l2) := f a n1 in (r, n2, l1 ++ l2)
           | (RThrow e, n1, l1) => (RThrow e, n1, l1)
           | (RUB u, n1, l1) => (RUB u, n1, l1)
           | (RExit, n1, l1) => (RExit, n1, l1)
           end.
Declare Scope rm_scope.
Delimit Scope rm_scope with rm.
Notation "x <- m ;; k" := (bind m (fun x => k)) (at level 61, m at next level, right associativity) : rm_scope.
Notation "m ;;; k" := (bind m (fun _ => k)) (at level 61, right associativity) : rm_scope.
Open Scope rm_scope.

Definition get {A} (f : node -> A) : M A := fun n => (ROk (f n), n, []).
Definition modify (f : node -> node) : M unit := fun n => (ROk tt, f n, []).
(** an action, with its durable effect *)
Definition emit (a : act) : M unit := fun n => (ROk tt, set_disk (disk_apply (n_disk n) a) n, [a]).
Definition throw {A} (e : exn) : M A := fun n => (RThrow e, n, []).
Definition ub {A} (u : ubkind) : M A := fun n => (RUB u, n, []).
Definition lift {A} (r : res A) : M A :=
  fun n => (match r with Ok a => ROk a | Throw e => RThrow e | UB u => RUB u end, n, []).
(** ctx_->state_mgr_->system_exit(code) *)
Definition system_exit {A} (code : Z) : M A := fun n => (RExit, n, [AExit code]).
Definition when (b : bool) (m : M unit) : M unit := if b then m else ret tt.
(** try { m } catch (...) { h } *)
Definition catch {A} (m : M A) (h : M A) : M A :=
  fun n => match m n with
           | (RThrow _, n1, l1) => let '(r, n2, l2) := h n1 in (r, n2, l1 ++ l2)
           | x => x
           end.

Fixpoint for_each {A} (l : list A) (f : A -> M unit) : M unit :=
  match l with [] => ret tt | x :: l => f x ;;; for_each l f end.

(** ** The log store as seen by the server (C14: FsLogSpec.spec_ans) *)
Definition next_slot_ : M N := get (fun n => a_next (n_log n)).
Definition start_index_ : M N := get (fun n => al_start (n_log n)).
Definition last_entry_ : M entry_val := get (fun n => a_last (n_log n)).
Definition log_append (e : entry_val) : M N :=
  i <- next_slot_ ;; emit (AAppend e) ;;; ret i.
Definition log_write_at (i : N) (e : entry_val) : M unit :=
  l <- get n_log ;;
  if (i <? al_start l) || (a_next l <? i) then throw RangeError else emit (AWriteAt i e).
(** an entry pointer, null when there is no such entry *)
Definition log_entry_at (i : N) : M (option entry_val) :=
  l <- get n_log ;;
  if i <? al_start l then throw RangeError else ret (a_get l i).
Definition deref {A} (p : option A) : M A := match p with Some a => ret a | None => ub NullDeref end.
Definition log_term_at (i : N) : M N :=
  l <- get n_log ;;
  if i <? al_start l then throw RangeError
  else match a_get l i with Some e => ret (ev_term e) | None => throw IosFailure end.
Definition log_entries_ (a b : N) : M (list entry_val) :=
  l <- get n_log ;;
  if a <? al_start l then throw RangeError else ret (a_range l a b).
Definition log_compact (k : N) : M bool :=
  l <- get n_log ;;
  if k <? al_start l then throw RangeError else emit (ACompact k) ;;; ret true.
Definition log_pack_ (i : N) (cnt : Z) : M (list byte) :=
  l <- get n_log ;;
  if i <? al_start l then throw RangeError
  else if a_next l <=? i then ret []
  else ret (pack_bytes (dsize (a_range l (al_start l) i)) (a_range l i (i + Z.to_N cnt))).
Definition log_apply_pack (i : N) (pk : list byte) : M unit :=
  es <- lift (unpack pk) ;;
  l <- get n_log ;;
  if (i <? al_start l) || (a_next l <? i) then throw IosFailure else emit (AApplyPack i es).

(** ** Peers *)
Definition find_peer (id : Z) (l : list peer) : option peer := find (fun p => (p_id p =? id)%Z) l.
Definition upd_peers (id : Z) (f : peer -> peer) (l : list peer) : list peer :=
  map (fun p => if (p_id p =? id)%Z then f p else p) l.
Definition rm_peer (id : Z) (l : list peer) : list peer := filter (fun p => negb (p_id p =? id)%Z) l.

(** a reference to a peer object: one of peers_, or srv_to_join_ *)
Inductive pref := PPeer (id : Z) | PJoin.
Definition get_peer (r : pref) (n : node) : option peer :=
  match r with PPeer id => find_peer id (n_peers n) | PJoin => n_join n end.
Definition upd_peer (r : pref) (f : peer -> peer) (n : node) : node :=
  match r with
  | PPeer id => set_peers (upd_peers id f (n_peers n)) n
  | PJoin => set_join (option_map f (n_join n)) n
  end.
Definition the_peer (r : pref) : M peer :=
  p <- get (get_peer r) ;; match p with Some p => ret p | None => ub UseAfterFree end.
(** cs_new<peer>(config, ctx, exec) *)
Definition make_peer (c : srv_config) : M peer :=
  n <- get (fun n => n) ;;
  modify (set_uid (n_uid n + 1)) ;;; ret (new_peer (n_uid n) c (n_prm n)).
(** src/peer.cxx:21-27 *)
Definition send_req (r : pref) (ext : bool) (q : req) : M unit :=
  p <- the_peer r ;; emit (ASend (p_uid p) ext q).

(** src/raft_server.cxx:399-417, :419-428 *)
Definition restart_election_timer : M unit :=
  c <- get n_catching ;;
  if c then ret tt else modify (set_timer true) ;;; emit (ATimer true).
Definition stop_election_timer : M unit := modify (set_timer false) ;;; emit (ATimer false).

Definition save_state : M unit :=
  t <- get n_term ;; v <- get n_vote ;; emit (ASaveState t v).

(** src/raft_server.cxx:466-471 *)
Definition enable_hb_for_peer (id : Z) : M unit :=
  pm <- get n_prm ;;
  modify (upd_peer (PPeer id) (fun p => p_set_hb true true (p_resume pm p))) ;;;
  emit (AHbTimer id).

(** src/raft_server.cxx:473-494 *)
Definition become_follower : M unit :=
  modify (set_prevote None) ;;;
  modify (fun n => set_peers (map p_disable_hb (n_peers n)) n) ;;;
  modify (set_join None) ;;;
  modify (set_role Follower) ;;;
  restart_election_timer ;;;
  emit ABecomeFollower.

(** src/raft_server.cxx:496-511 *)
Definition update_term (term : N) : M bool :=
  t <- get n_term ;;
  if t <? term then
    modify (set_term term) ;;;
    modify (set_vote (-1)) ;;;
    modify (set_done false) ;;;
    modify (set_votes 0) ;;;
    modify (set_voted []) ;;;
    save_state ;;;
    become_follower ;;;
    ret true
  else ret false.

(** src/raft_server.cxx:859-880 *)
Definition term_for_log (i : N) : M N :=
  if i =? 0 then ret 0
  else
    s <- start_index_ ;;
    if s <=? i then log_term_at i
    else
      snp <- get (fun n => dk_snp (n_disk n)) ;;
      match snp with
      | Some sn => if i =? sn_last_log_idx sn then ret (sn_last_log_term sn) else system_exit (-1)
      | None => system_exit (-1)
      end.

(** src/raft_server.cxx:789-793 *)
Definition block_size (pm : params) : Z := if (pm_block_size pm =? 0)%Z then 4096%Z else pm_block_size pm.

(** src/raft_server.cxx:795-857.  A null last_snapshot_ is dereferenced by the
    log statement of line 812 before the exit. *)
Definition create_sync_snapshot_req (r : pref) (last_log_idx term commit_idx : N) : M req :=
  p <- the_peer r ;;
  n <- get (fun n => n) ;;
  let fresh :=
    match p_sync p with
    | None => true
    | Some (s, _) => match n_snp n with Some ls => sn_last_log_idx s <? sn_last_log_idx ls | None => false end
    end in
  cur <- (if fresh then
            match n_snp n with
            | None => ub NullDeref
            | Some s =>
                if sn_last_log_idx s <? last_log_idx then system_exit (-1)
                else if sn_size s <? 1 then system_exit (-1)
                else modify (upd_peer r (p_set_sync (Some (s, 0)))) ;;; ret (s, 0)
            end
          else match p_sync p with Some c => ret c | None => ub NullDeref end) ;;
  let '(s, offset) := cur in
  let sz_left := to_int32 (Z.of_N (sub64 (sn_size s) offset)) in
  let want := ulong_of_Z (Z.min (block_size (n_prm n)) sz_left) in
  if two31 <=? want then throw OutOfRange
  else
    (* state_machine::read_snapshot_data: the bytes of the snapshot that exist *)
    let d := firstn (N.to_nat want) (skipn (N.to_nat offset) (dk_snp_data (n_disk n))) in
    if lenN d <? want then system_exit (-1)
    else
      let done := sn_size s <=? offset + want in
      ret (mkReq term install_snapshot_request (n_id n) (p_id p) (sn_last_log_term s) (sn_last_log_idx s) commit_idx
             [mkEV term snp_sync_req (sync_bytes s offset done d)]).

(** src/raft_server.cxx:638-696 *)
Definition create_append_entries_req (r : pref) : M req :=
  p <- the_peer r ;;
  n <- get (fun n => n) ;;
  let starting_idx := al_start (n_log n) in
  let cur_nxt_idx := a_next (n_log n) in
  let commit_idx := n_quick n in
  let term := n_term n in
  let nxt := if p_next p =? 0 then cur_nxt_idx else p_next p in
  when (p_next p =? 0) (modify (upd_peer r (p_set_next cur_nxt_idx))) ;;;
  let last_log_idx := nxt - 1 in
  if cur_nxt_idx <=? last_log_idx then system_exit (-1)
  else if (0 <? last_log_idx) && (last_log_idx <? starting_idx - 1) then
    create_sync_snapshot_req r last_log_idx term commit_idx
  else
    last_log_term <- term_for_log last_log_idx ;;
    let end_idx := N.min cur_nxt_idx (last_log_idx + 1 + pm_max_append (n_prm n)) in
    es <- (if cur_nxt_idx <=? last_log_idx + 1 then ret [] else log_entries_ (last_log_idx + 1) end_idx) ;;
    ret (mkReq term append_entries_request (n_id n) (p_id p) last_log_term last_log_idx commit_idx es).

(** src/raft_server.cxx:360-371 *)
Definition request_append_entries_to (id : Z) : M bool :=
  p <- the_peer (PPeer id) ;;
  if p_busy p then ret false
  else
    modify (upd_peer (PPeer id) (p_set_busy true)) ;;;
    q <- create_append_entries_req (PPeer id) ;;
    send_req (PPeer id) false q ;;;
    ret true.

Definition peer_ids : M (list Z) := get (fun n => map p_id (n_peers n)).

(** src/raft_server.cxx:513-538 *)
Definition commit (target_idx : N) : M unit :=
  q <- get n_quick ;;
  if q <? target_idx then
    modify (set_quick target_idx) ;;;
    r <- get n_role ;;
    match r with
    | Leader =>
        ids <- peer_ids ;;
        for_each ids (fun id =>
          sent <- request_append_entries_to id ;;
          when (negb sent) (modify (upd_peer (PPeer id) (p_set_pending true))))
    | _ => ret tt
    end
  else ret tt.

(** src/raft_server.cxx:345-358 *)
Definition request_append_entries : M unit :=
  ids <- peer_ids ;;
  match ids with
  | [] => nx <- next_slot_ ;; commit (nx - 1)
  | _ => for_each ids (fun id => request_append_entries_to id ;;; ret tt)
  end.

(** src/raft_server.cxx:430-464.  [ABecomeLeader] is the call of the event listener (458-461), which in
    the code comes after the configuration entry is appended and before anything is sent *)
Definition become_leader : M unit :=
  stop_election_timer ;;;
  modify (set_role Leader) ;;;
  id <- get n_id ;;
  modify (set_leader id) ;;;
  modify (set_join None) ;;;
  t <- get n_term ;;
  emit (ABecomeLeader t) ;;;
  nx <- next_slot_ ;;
  ids <- peer_ids ;;
  for_each ids (fun i =>
    modify (upd_peer (PPeer i) (fun p => p_set_busy false (p_set_sync None (p_set_next nx p)))) ;;;
    enable_hb_for_peer i) ;;;
  c <- get n_config ;;
  when (cc_log_idx c =? 0)
    (nx <- next_slot_ ;;
     modify (set_config (cfg_set_log_idx nx c)) ;;;
     log_append (conf_entry t (cfg_set_log_idx nx c)) ;;;
     modify (set_changing true)) ;;;
  request_append_entries.

Definition majority (n : node) (votes : Z) : bool :=
  ((Z.of_nat (length (n_peers n)) + 1) / 2 <? votes)%Z.

(** src/raft_server.cxx:302-343 *)
Definition request_vote : M unit :=
  id <- get n_id ;;
  modify (set_vote id) ;;;
  save_state ;;;
  modify (fun n => set_votes (n_votes n + 1)%Z n) ;;;
  modify (fun n => set_voted (id :: n_voted n) n) ;;;
  n <- get (fun n => n) ;;
  if majority n (n_votes n) then
    modify (set_done true) ;;;
    become_leader
  else
    ids <- peer_ids ;;
    for_each ids (fun i =>
      nx <- next_slot_ ;;
      lt <- term_for_log (nx - 1) ;;
      send_req (PPeer i) false (mkReq (n_term n) vote_request id i lt (nx - 1) (n_quick n) [])).

(** src/raft_server.cxx:238-255 *)
Definition become_candidate : M unit :=
  modify (set_prevote None) ;;;
  modify (fun n => set_term (n_term n + 1) n) ;;;
  modify (set_vote (-1)) ;;;
  modify (set_role Candidate) ;;;
  modify (set_votes 0) ;;;
  modify (set_voted []) ;;;
  modify (set_done false) ;;;
  save_state ;;;
  request_vote ;;;
  r <- get n_role ;;
  match r with Leader => ret tt | _ => restart_election_timer end.

(** std::unordered_set::emplace: the set afterwards and whether it was added *)
Definition set_add (x : Z) (l : list Z) : list Z * bool :=
  if existsb (Z.eqb x) l then (l, false) else (x :: l, true).

(** src/raft_server.cxx:257-300 *)
Definition request_prevote : M unit :=
  ids <- peer_ids ;;
  match ids with
  | [] => become_candidate
  | _ =>
      pv <- get n_prevote ;;
      id <- get n_id ;;
      let '(acc, voted) := match pv with Some x => x | None => (0%Z, []) end in
      modify (set_prevote (Some ((acc + 1)%Z, fst (set_add id voted)))) ;;;
      for_each ids (fun i =>
        n <- get (fun n => n) ;;
        nx <- next_slot_ ;;
        lt <- term_for_log (nx - 1) ;;
        send_req (PPeer i) true (mkReq (n_term n) prevote_request id i lt (nx - 1) (n_quick n) []))
  end.

(** erase the first server with this id *)
Fixpoint erase_srv (id : Z) (l : list srv_config) : list srv_config :=
  match l with
  | [] => []
  | s :: l => if (sc_id s =? id)%Z then l else s :: erase_srv id l
  end.

(** src/raft_server.cxx:174-236; the timer that fired is no longer running *)
Definition handle_election_timeout : M unit :=
  modify (set_timer false) ;;;
  n <- get (fun n => n) ;;
  if (0 <? n_steps n)%Z then
    modify (set_steps (n_steps n - 1)%Z) ;;;
    if (n_steps n - 1 =? 0)%Z then
      match cfg_server (n_config n) (n_id n) with
      | Some _ =>
          let c := mkCfg (cc_log_idx (n_config n)) (cc_prev_log_idx (n_config n))
                     (erase_srv (n_id n) (cc_servers (n_config n))) in
          modify (set_config c) ;;; emit (ASaveConfig c)
      | None => ret tt
      end ;;;
      system_exit (-1)
    else restart_election_timer
  else if n_catching n then restart_election_timer
  else
    match n_role n with
    | Leader => system_exit (-1)
    | Follower =>
        if pm_prevote (n_prm n) then
          match n_prevote n with
          | Some (_, _ :: _) => ret tt
          | _ => request_prevote
          end
        else become_candidate
    | Candidate => become_candidate
    end.

(** src/raft_server.cxx:373-397; the task that fired is no longer scheduled.
    The task of a peer that does not exist any more has been cancelled. *)
Definition handle_hb_timeout (id : Z) : M unit :=
  modify (upd_peer (PPeer id) (fun p => p_set_hb (p_hb_on p) false p)) ;;;
  r <- get n_role ;;
  x <- get (get_peer (PPeer id)) ;;
  match r, x with
  | Leader, Some _ =>
      request_append_entries_to id ;;;
      p <- the_peer (PPeer id) ;;
      when (p_hb_on p)
        (modify (upd_peer (PPeer id) (fun p => p_set_hb (p_hb_on p) true p)) ;;; emit (AHbTimer id))
  | _, _ => ret tt
  end.

(** src/raft_server.cxx:698-787 *)
Definition reconfigure (new_config : cluster_config) : M unit :=
  n <- get (fun n => n) ;;
  let added := filter (fun s => match find_peer (sc_id s) (n_peers n) with
                                | None => negb (n_id n =? sc_id s)%Z
                                | Some _ => false end) (cc_servers new_config) in
  let removed := map p_id (filter (fun p => match cfg_server new_config (p_id p) with None => true | Some _ => false end)
                                  (n_peers n))
                 ++ (match cfg_server new_config (n_id n) with None => [n_id n] | Some _ => [] end) in
  for_each added (fun s =>
    p <- make_peer s ;;
    nx <- next_slot_ ;;
    (* insert does nothing if the id is already there *)
    modify (fun n => match find_peer (sc_id s) (n_peers n) with
                     | None => set_peers (n_peers n ++ [p_set_next nx p]) n
                     | Some _ => n end) ;;;
    r <- get n_role ;;
    match r with
    | Leader =>
        enable_hb_for_peer (sc_id s) ;;;
        j <- get n_join ;;
        match j with
        | Some jp =>
            when (p_id jp =? sc_id s)%Z
              (modify (upd_peer (PPeer (sc_id s)) (p_set_next (p_next jp))) ;;; modify (set_join None))
        | None => ret tt
        end
    | _ => ret tt
    end) ;;;
  for_each removed (fun id =>
    c <- get n_catching ;;
    if (id =? n_id n)%Z && negb c then
      emit (ASaveConfig new_config) ;;;
      system_exit 0
    else modify (fun n => set_peers (rm_peer id (n_peers n)) n)) ;;;
  modify (set_config new_config).

(** src/raft_server.cxx:1053-1078; [now] in milliseconds.  The cached time is
    static in C++, i.e. one per process: one server per process is assumed. *)
Fixpoint insert_sorted (x : N) (l : list N) : list N :=
  match l with
  | [] => [x]
  | y :: l' => if x <=? y then x :: l else y :: insert_sorted x l'
  end.
Definition sort_asc (l : list N) : list N := fold_right insert_sorted [] l.
Definition is_leader (now : N) : M bool :=
  n <- get (fun n => n) ;;
  let is := match n_role n with Leader => true | _ => false end in
  let limit := (pm_el_upper (n_prm n) * 2)%Z in
  if is && negb (Nat.eqb (length (n_peers n)) 0) && (limit <? n_elapsed n)%Z then
    let t := nth (Nat.div (length (n_peers n)) 2) (sort_asc (map p_last_resp (n_peers n))) 0 in
    let e := to_int32 (Z.of_N now - Z.of_N t) in
    modify (set_elapsed e) ;;;
    if (limit <? e)%Z then ret false else ret is
  else ret is.

(** ** Requests: src/raft_server_req_handlers.cxx *)

(** include/resp_msg.hxx: not accepted, next index 0 unless given *)
Definition resp_of (t : N) (ty : byte) (src dst : Z) : resp_msg := mkResp t ty src dst 0 false.
Definition accept (idx : N) (r : resp_msg) : resp_msg :=
  mkResp (rs_term r) (rs_type r) (rs_src r) (rs_dst r) idx true.

(** lines 123-133: skip entries already present with the same term *)
Fixpoint skip_matching (idx : N) (es : list entry_val) : M (N * list entry_val) :=
  match es with
  | [] => ret (idx, [])
  | e :: es' =>
      nx <- next_slot_ ;;
      if idx <? nx then
        t <- log_term_at idx ;;
        if t =? ev_term e then skip_matching (idx + 1) es' else ret (idx, es)
      else ret (idx, es)
  end.

(** lines 136-166: overwrite *)
Fixpoint overwrite (idx : N) (es : list entry_val) : M (list entry_val) :=
  match es with
  | [] => ret []
  | e :: es' =>
      nx <- next_slot_ ;;
      if idx <? nx then
        o <- log_entry_at idx ;;
        old <- deref o ;;
        when (beq (ev_type old) app_log) (emit (ARollback idx old)) ;;;
        when (beq (ev_type old) conf_log) (modify (set_changing false)) ;;;
        log_write_at idx e ;;;
        when (beq (ev_type e) app_log) (emit (APreCommit idx e)) ;;;
        when (beq (ev_type e) conf_log) (modify (set_changing true)) ;;;
        overwrite (idx + 1) es'
      else ret es
  end.

(** lines 169-183: append the rest *)
Fixpoint append_rest (es : list entry_val) : M unit :=
  match es with
  | [] => ret tt
  | e :: es' =>
      i <- log_append e ;;
      when (beq (ev_type e) conf_log) (modify (set_changing true)) ;;;
      when (beq (ev_type e) app_log) (emit (APreCommit i e)) ;;;
      append_rest es'
  end.

(** src/raft_server_req_handlers.cxx:86-191 *)
Definition handle_append_entries (q : req) : M resp_msg :=
  n <- get (fun n => n) ;;
  when (rq_term q =? n_term n)
    (match n_role n with
     | Candidate => become_follower
     | Leader => system_exit (-1)
     | Follower => restart_election_timer
     end) ;;;
  nx <- next_slot_ ;;
  let resp := mkResp (n_term n) append_entries_response (n_id n) (rq_src q) nx false in
  log_okay <- (if rq_last_idx q =? 0 then ret true
               else if rq_last_idx q <? nx then
                 t <- term_for_log (rq_last_idx q) ;; ret (rq_last_term q =? t)
               else ret false) ;;
  if (rq_term q <? n_term n) || negb log_okay then ret resp
  else
    r <- skip_matching (rq_last_idx q + 1) (rq_entries q) ;;
    rest <- overwrite (fst r) (snd r) ;;
    append_rest rest ;;;
    modify (set_leader (rq_src q)) ;;;
    commit (rq_commit q) ;;;
    ret (accept (rq_last_idx q + lenN (rq_entries q) + 1) resp).

(** lines 196-198 and 214-216 *)
Definition vote_log_okay (q : req) (l : alog) : bool :=
  (ev_term (a_last l) <? rq_last_term q) ||
  ((rq_last_term q =? ev_term (a_last l)) && (a_next l - 1 <=? rq_last_idx q)).

(** src/raft_server_req_handlers.cxx:193-209 *)
Definition handle_vote_req (q : req) : M resp_msg :=
  n <- get (fun n => n) ;;
  let resp := resp_of (n_term n) vote_response (n_id n) (rq_src q) in
  let grant := (rq_term q =? n_term n) && vote_log_okay q (n_log n) &&
               ((n_vote n =? rq_src q)%Z || (n_vote n =? -1)%Z) in
  if grant then
    modify (set_vote (rq_src q)) ;;;
    save_state ;;;
    ret (accept (a_next (n_log n)) resp)
  else ret resp.

(** src/raft_server_req_handlers.cxx:211-230 *)
Definition handle_prevote_req (q : req) : M resp_msg :=
  n <- get (fun n => n) ;;
  let resp := resp_of (n_term n) prevote_response (n_id n) (rq_src q) in
  let grant := (n_term n <=? rq_term q) && vote_log_okay q (n_log n) in
  let grant := if pm_defensive (n_prm n) then
                 grant && match n_prevote n with Some _ => true | None => false end
               else grant in
  ret (if grant then accept (a_next (n_log n)) resp else resp).

(** lines 250-258 *)
Fixpoint cli_append (term : N) (es : list entry_val) : M unit :=
  match es with
  | [] => ret tt
  | e :: es' =>
      let e := mkEV term (ev_type e) (ev_data e) in
      log_append e ;;;
      nx <- next_slot_ ;;
      emit (APreCommit (nx - 1) e) ;;;
      cli_append term es'
  end.

(** src/raft_server_req_handlers.cxx:232-264 *)
Definition handle_cli_req (now : N) (q : req) : M resp_msg :=
  leader <- is_leader now ;;
  n <- get (fun n => n) ;;
  match n_role n, leader with
  | Leader, false => ret (resp_of (n_term n) append_entries_response (n_id n) (-1))
  | _, _ =>
      let resp := resp_of (n_term n) append_entries_response (n_id n) (n_leader n) in
      if leader then
        cli_append (n_term n) (rq_entries q) ;;;
        request_append_entries ;;;
        nx <- next_slot_ ;;
        ret (accept nx resp)
      else ret resp
  end.

(** src/raft_server_req_handlers.cxx:348-408; apply_snapshot succeeds *)
Definition handle_snapshot_sync_req (s : sync_val) : M bool :=
  catch
   (emit (ASaveSnpData (sv_snp s) (sv_offset s) (sv_data s)) ;;;
    if sv_done s then
      r <- get n_role ;;
      match r with
      | Follower =>
          ok <- log_compact (sn_last_log_idx (sv_snp s)) ;;
          if ok then
            stop_election_timer ;;;
            emit (AApplySnapshot (sv_snp s)) ;;;
            reconfigure (sn_config (sv_snp s)) ;;;
            c <- get n_config ;;
            emit (ASaveConfig c) ;;;
            modify (set_smc (sn_last_log_idx (sv_snp s))) ;;;
            modify (set_quick (sn_last_log_idx (sv_snp s))) ;;;
            save_state ;;;
            modify (set_snp (Some (mkSnp (sn_last_log_idx (sv_snp s)) (sn_last_log_term (sv_snp s)) (sn_size (sv_snp s)) c))) ;;;
            restart_election_timer ;;;
            ret true
          else ret false
      | _ => system_exit (-1)
      end
    else ret true)
   (system_exit (-1)).

(** src/raft_server_req_handlers.cxx:295-346 *)
Definition handle_install_snapshot_req (q : req) : M resp_msg :=
  n <- get (fun n => n) ;;
  when ((rq_term q =? n_term n) && negb (n_catching n))
    (match n_role n with
     | Candidate => become_follower
     | Leader => system_exit (-1)
     | Follower => restart_election_timer
     end) ;;;
  let resp := resp_of (n_term n) install_snapshot_response (n_id n) (rq_src q) in
  if negb (n_catching n) && (rq_term q <? n_term n) then ret resp
  else
    match rq_entries q with
    | [e] =>
        if negb (beq (ev_type e) snp_sync_req) then ret resp
        else
          s <- lift (parse_sync (ev_data e)) ;;
          smc <- get n_smc ;;
          if sn_last_log_idx (sv_snp s) <=? smc then ret resp
          else
            ok <- handle_snapshot_sync_req s ;;
            ret (if ok then accept (sv_offset s + lenN (sv_data s)) resp else resp)
    | _ => ret resp
    end.

(** src/raft_server_req_handlers.cxx:580-592 *)
Definition invite_srv_to_join_cluster : M unit :=
  n <- get (fun n => n) ;;
  j <- the_peer PJoin ;;
  send_req PJoin true
    (mkReq (n_term n) join_cluster_request (n_id n) (p_id j) 0 (a_next (n_log n) - 1) (n_quick n)
       [conf_entry (n_term n) (n_config n)]).

(** src/raft_server_req_handlers.cxx:472-512 *)
Definition handle_add_srv_req (q : req) : M resp_msg :=
  n <- get (fun n => n) ;;
  let resp := resp_of (n_term n) add_server_response (n_id n) (n_leader n) in
  match rq_entries q with
  | [e] =>
      if negb (beq (ev_type e) cluster_server) then ret resp
      else
        match n_role n with
        | Leader =>
            c <- lift (parse_srv (ev_data e)) ;;
            if (match find_peer (sc_id c) (n_peers n) with Some _ => true | None => false end)
               || (n_id n =? sc_id c)%Z then ret resp
            else if n_changing n then ret resp
            else
              modify (set_to_add (Some c)) ;;;
              p <- make_peer c ;;
              modify (set_join (Some p)) ;;;
              invite_srv_to_join_cluster ;;;
              nx <- next_slot_ ;;
              ret (accept nx resp)
        | _ => ret resp
        end
  | _ => ret resp
  end.

(** src/raft_server_req_handlers.cxx:416-470 *)
Definition handle_rm_srv_req (q : req) : M resp_msg :=
  n <- get (fun n => n) ;;
  let resp := resp_of (n_term n) remove_server_response (n_id n) (n_leader n) in
  match rq_entries q with
  | [e] =>
      if negb (lenN (ev_data e) =? 4) then ret resp
      else
        match n_role n with
        | Leader =>
            if n_changing n then ret resp
            else
              id <- lift (parse_int (ev_data e)) ;;
              if (id =? n_id n)%Z then ret resp
              else
                match find_peer id (n_peers n) with
                | None => ret resp
                | Some _ =>
                    send_req (PPeer id) true
                      (mkReq (n_term n) leave_cluster_request (n_id n) id 0 (a_next (n_log n) - 1) (n_quick n) []) ;;;
                    ret (accept (a_next (n_log n)) resp)
                end
        | _ => ret resp
        end
  | _ => ret resp
  end.

(** src/raft_server_req_handlers.cxx:514-534 *)
Definition handle_log_sync_req (q : req) : M resp_msg :=
  n <- get (fun n => n) ;;
  let resp := resp_of (n_term n) sync_log_response (n_id n) (rq_src q) in
  match rq_entries q with
  | [e] =>
      if negb (beq (ev_type e) log_pack) then ret resp
      else if negb (n_catching n) then ret resp
      else
        log_apply_pack (rq_last_idx q + 1) (ev_data e) ;;;
        nx <- next_slot_ ;;
        commit (nx - 1) ;;;
        ret (accept nx resp)
  | _ => ret resp
  end.

(** src/raft_server_req_handlers.cxx:594-621 *)
Definition handle_join_cluster_req (q : req) : M resp_msg :=
  n <- get (fun n => n) ;;
  let resp := resp_of (n_term n) join_cluster_response (n_id n) (rq_src q) in
  match rq_entries q with
  | [e] =>
      if negb (beq (ev_type e) conf_log) then ret resp
      else if n_catching n then ret resp
      else
        modify (set_catching true) ;;;
        modify (set_role Follower) ;;;
        modify (set_leader (rq_src q)) ;;;
        modify (set_smc 0) ;;;
        modify (set_quick 0) ;;;
        modify (set_vote (-1)) ;;;
        modify (set_term (rq_term q)) ;;;
        save_state ;;;
        c <- lift (parse_cfg (ev_data e)) ;;
        reconfigure c ;;;
        nx <- next_slot_ ;;
        ret (accept nx resp)
  | _ => ret resp
  end.

(** src/raft_server_req_handlers.cxx:623-633 *)
Definition handle_leave_cluster_req (q : req) : M resp_msg :=
  n <- get (fun n => n) ;;
  let resp := resp_of (n_term n) leave_cluster_response (n_id n) (rq_src q) in
  if n_changing n then ret resp
  else modify (set_steps 2) ;;; ret (accept (a_next (n_log n)) resp).

(** src/raft_server_req_handlers.cxx:266-293 *)
Definition handle_extended_msg (q : req) : M resp_msg :=
  let t := rq_type q in
  if beq t add_server_request then handle_add_srv_req q
  else if beq t remove_server_request then handle_rm_srv_req q
  else if beq t sync_log_request then handle_log_sync_req q
  else if beq t join_cluster_request then handle_join_cluster_req q
  else if beq t leave_cluster_request then handle_leave_cluster_req q
  else if beq t install_snapshot_request then handle_install_snapshot_req q
  else if beq t prevote_request then handle_prevote_req q
  else system_exit (-1).

(** src/raft_server_req_handlers.cxx:24-84 *)
Definition process_req (now : N) (q : req) : M resp_msg :=
  let t := rq_type q in
  when (beq t append_entries_request || beq t vote_request || beq t install_snapshot_request)
    (update_term (rq_term q) ;;;
     s <- get n_steps ;;
     when (0 <? s)%Z (modify (set_steps 2))) ;;;
  if beq t append_entries_request then handle_append_entries q
  else if beq t vote_request then handle_vote_req q
  else if beq t client_request then handle_cli_req now q
  else handle_extended_msg q.

(** ** Responses: src/raft_server_resp_handlers.cxx *)

(** std::sort(..., std::greater) *)
Fixpoint insert_desc (x : N) (l : list N) : list N :=
  match l with
  | [] => [x]
  | y :: l' => if y <=? x then x :: l else y :: insert_desc x l'
  end.
Definition sort_desc (l : list N) : list N := fold_right insert_desc [] l.

(** src/raft_server_resp_handlers.cxx:85-141 *)
Definition handle_append_entries_resp (r : resp_msg) : M unit :=
  n <- get (fun n => n) ;;
  match find_peer (rs_src r) (n_peers n) with
  | None => ret tt
  | Some _ =>
      let ref := PPeer (rs_src r) in
      need <-
        (if rs_accepted r then
           modify (upd_peer ref (fun p => p_set_match (pred64 (rs_next_idx r)) (p_set_next (rs_next_idx r) p))) ;;;
           n <- get (fun n => n) ;;
           let matched := (a_next (n_log n) - 1) :: map p_match (n_peers n) in
           commit (nth (Nat.div (length (n_peers n) + 1) 2) (sort_desc matched) 0) ;;;
           p <- the_peer ref ;;
           modify (upd_peer ref (p_set_pending false)) ;;;
           nx <- next_slot_ ;;
           ret (p_pending p || (rs_next_idx r <? nx))
         else
           modify (upd_peer ref (fun p =>
             if (0 <? rs_next_idx r) && (rs_next_idx r <? p_next p) then p_set_next (rs_next_idx r) p
             else if 0 <? p_next p then p_set_next (p_next p - 1) p
             else p)) ;;;
           ret true) ;;
      role <- get n_role ;;
      match role with
      | Leader => when need (request_append_entries_to (rs_src r) ;;; ret tt)
      | _ => ret tt
      end
  end.

(** src/raft_server_resp_handlers.cxx:143-196 *)
Definition handle_install_snapshot_resp (r : resp_msg) : M unit :=
  n <- get (fun n => n) ;;
  match find_peer (rs_src r) (n_peers n) with
  | None => ret tt
  | Some p =>
      let ref := PPeer (rs_src r) in
      need <-
        (if rs_accepted r then
           match p_sync p with
           | None => ret false
           | Some (s, _) =>
               if sn_size s <=? rs_next_idx r then
                 modify (upd_peer ref (fun p => p_set_pending false (p_set_sync None
                   (p_set_match (sn_last_log_idx s) (p_set_next (sn_last_log_idx s + 1) p))))) ;;;
                 nx <- next_slot_ ;;
                 ret (p_pending p || (rs_next_idx r <? nx))
               else
                 modify (upd_peer ref (p_set_sync (Some (s, rs_next_idx r)))) ;;; ret true
           end
         else ret true) ;;
      role <- get n_role ;;
      match role with
      | Leader => when need (request_append_entries_to (rs_src r) ;;; ret tt)
      | _ => ret tt
      end
  end.

(** src/raft_server_resp_handlers.cxx:198-239 *)
Definition handle_voting_resp (r : resp_msg) : M unit :=
  n <- get (fun n => n) ;;
  if negb (rs_term r =? n_term n) then ret tt
  else if n_done n then ret tt
  else if existsb (Z.eqb (rs_src r)) (n_voted n) then ret tt
  else
    modify (set_voted (rs_src r :: n_voted n)) ;;;
    when (rs_accepted r) (modify (set_votes (n_votes n + 1)%Z)) ;;;
    n <- get (fun n => n) ;;
    when (Nat.leb (length (n_peers n) + 1) (length (n_voted n))) (modify (set_done true)) ;;;
    when (majority n (n_votes n)) (modify (set_done true) ;;; become_leader).

(** src/raft_server_resp_handlers.cxx:241-276 *)
Definition handle_prevote_resp (r : resp_msg) : M unit :=
  n <- get (fun n => n) ;;
  match n_prevote n with
  | None => ret tt
  | Some (acc, voted) =>
      let '(voted, added) := set_add (rs_src r) voted in
      if negb added then ret tt
      else
        let acc := if rs_accepted r then (acc + 1)%Z else acc in
        modify (set_prevote (Some (acc, voted))) ;;;
        if majority n acc then become_candidate
        else if Nat.leb (length (n_peers n) + 1) (length voted) then
          modify (set_prevote (Some (0%Z, []))) ;;;
          restart_election_timer
        else ret tt
  end.

(** src/raft_server_resp_handlers.cxx:24-83 *)
Definition handle_peer_resp (now : N) (r : resp_msg) : M unit :=
  n <- get (fun n => n) ;;
  match find_peer (rs_src r) (n_peers n) with
  | None => ret tt
  | Some _ =>
      modify (upd_peer (PPeer (rs_src r)) (p_set_last_resp now)) ;;;
      up <- update_term (rs_term r) ;;
      if up then ret tt
      else if beq (rs_type r) vote_response then handle_voting_resp r
      else if beq (rs_type r) append_entries_response then handle_append_entries_resp r
      else if beq (rs_type r) install_snapshot_response then handle_install_snapshot_resp r
      else system_exit (-1)
  end.

(** append a configuration entry and replicate it: the common part of
    src/raft_server_req_handlers.cxx:545-553 and :648-652 *)
Definition append_config (c : cluster_config) : M unit :=
  t <- get n_term ;;
  log_append (conf_entry t c) ;;;
  request_append_entries.

(** src/raft_server_req_handlers.cxx:536-578 *)
Definition sync_log_to_new_srv (start_idx : N) : M unit :=
  n <- get (fun n => n) ;;
  let gap := to_int32 (Z.of_N (sub64 (n_quick n) start_idx)) in
  if (gap <? pm_sync_gap (n_prm n))%Z then
    add <- deref (n_to_add n) ;;
    let c := mkCfg (a_next (n_log n)) (cc_log_idx (n_config n)) (cc_servers (n_config n) ++ [add]) in
    t <- get n_term ;;
    log_append (conf_entry t c) ;;;
    modify (set_changing true) ;;;
    request_append_entries
  else
    j <- the_peer PJoin ;;
    q <- (if (0 <? start_idx) && (start_idx <? al_start (n_log n)) then
            create_sync_snapshot_req PJoin start_idx (n_term n) (n_quick n)
          else
            pk <- log_pack_ start_idx (Z.min gap (pm_sync_batch (n_prm n))) ;;
            ret (mkReq (n_term n) sync_log_request (n_id n) (p_id j) 0 (pred64 start_idx) (n_quick n)
                   [mkEV (n_term n) log_pack pk])) ;;
    send_req PJoin true q.

(** src/raft_server_req_handlers.cxx:635-653 *)
Definition rm_srv_from_cluster (id : Z) : M unit :=
  n <- get (fun n => n) ;;
  let c := mkCfg (a_next (n_log n)) (cc_log_idx (n_config n))
             (filter (fun s => negb (sc_id s =? id)%Z) (cc_servers (n_config n))) in
  modify (set_changing true) ;;;
  append_config c.

(** src/raft_server_resp_handlers.cxx:278-386 (no error) *)
Definition handle_ext_resp (r : resp_msg) : M unit :=
  n <- get (fun n => n) ;;
  let t := rs_type r in
  if beq t sync_log_response then
    match n_join n with
    | None => ret tt
    | Some _ =>
        modify (upd_peer PJoin (fun p => p_set_match (pred64 (rs_next_idx r)) (p_set_next (rs_next_idx r) (p_resume (n_prm n) p)))) ;;;
        sync_log_to_new_srv (rs_next_idx r)
    end
  else if beq t join_cluster_response then
    match n_join n with
    | None => ret tt
    | Some _ => when (rs_accepted r) (sync_log_to_new_srv (rs_next_idx r))
    end
  else if beq t leave_cluster_response then
    when (rs_accepted r) (rm_srv_from_cluster (rs_src r))
  else if beq t install_snapshot_response then
    match n_join n with
    | None => ret tt
    | Some j =>
        if negb (rs_accepted r) then ret tt
        else
          match p_sync j with
          | None => system_exit (-1)
          | Some (s, _) =>
              (if sn_size s <=? rs_next_idx r then
                 modify (upd_peer PJoin (fun p => p_set_match (sn_last_log_idx s)
                   (p_set_next (sn_last_log_idx s + 1) (p_set_sync None p))))
               else modify (upd_peer PJoin (p_set_sync (Some (s, rs_next_idx r))))) ;;;
              j <- the_peer PJoin ;;
              sync_log_to_new_srv (p_next j)
          end
    end
  else if beq t prevote_response then handle_prevote_resp r
  else system_exit (-1).

(** src/raft_server_resp_handlers.cxx:388-466 *)
Definition handle_ext_resp_err (q : req) : M unit :=
  let t := rq_type q in
  if beq t sync_log_request || beq t join_cluster_request || beq t leave_cluster_request then
    n <- get (fun n => n) ;;
    let leave := beq t leave_cluster_request in
    let ref := if leave then PPeer (rq_dst q) else PJoin in
    match get_peer ref n with
    | None => ret tt
    | Some p =>
        if (max_hb (n_prm n) <=? p_hb_cur p)%Z then
          if leave then
            when (Nat.eqb (length (n_peers n)) 1) (modify (fun n => set_peers (rm_peer (p_id p) (n_peers n)) n)) ;;;
            rm_srv_from_cluster (p_id p)
          else
            modify (set_changing false) ;;; modify (set_join None)
        else
          modify (upd_peer ref (p_slow_down (n_prm n))) ;;;
          emit (ARetryLater (p_uid p) q)
    end
  else ret tt.

(** The peer object with number [uid], if it still exists (as long as a retry
    task holds a reference the object lives on; not modelled). *)
Definition live_ref (uid : N) (n : node) : option pref :=
  match find (fun p => p_uid p =? uid) (n_peers n) with
  | Some p => Some (PPeer (p_id p))
  | None => match n_join n with
            | Some j => if p_uid j =? uid then Some PJoin else None
            | None => None
            end
  end.

(** src/peer.cxx:21-50: completion of a request sent by send_req: the callback
    uses the peer object through a raw pointer *)
Definition rpc_done (now : N) (uid : N) (ext : bool) (q : req) (result : option resp_msg) : M unit :=
  n <- get (fun n => n) ;;
  match live_ref uid n with
  | None => ub UseAfterFree
  | Some ref =>
      when (beq (rq_type q) append_entries_request || beq (rq_type q) install_snapshot_request)
        (modify (upd_peer ref (p_set_busy false))) ;;;
      match result with
      | Some r =>
          modify (upd_peer ref (p_resume (n_prm n))) ;;;
          if ext then handle_ext_resp r else handle_peer_resp now r
      | None =>
          modify (upd_peer ref (p_slow_down (n_prm n))) ;;;
          when ext (handle_ext_resp_err q)
      end
  end.

(** src/raft_server_req_handlers.cxx:410-414, called by the timer of
    handle_ext_resp_err with a shared pointer to the peer *)
Definition retry (uid : N) (q : req) : M unit := emit (ASend uid true q).

(** ** Committing and snapshots *)

(** src/raft_server.cxx:561-566: the configuration in force at the committed
    index.  The C++ loop follows prev_log_idx without a bound; with the bound used
    below (the length of the log) it stops early only if those indices do not
    decrease. *)
Fixpoint find_conf (fuel : nat) (committed : N) (c : cluster_config) : M cluster_config :=
  match fuel with
  | O => ret c
  | S fuel =>
      s <- start_index_ ;;
      if (committed <? cc_log_idx c) && (s <=? cc_prev_log_idx c) then
        e <- log_entry_at (cc_prev_log_idx c) ;;
        e <- deref e ;;
        c <- lift (parse_cfg (ev_data e)) ;;
        find_conf fuel committed c
      else ret c
  end.

(** src/raft_server.cxx:540-606.  An exit inside the try block ends the process. *)
Definition snapshot_and_compact (committed : N) : M unit :=
  n <- get (fun n => n) ;;
  let dist := pm_snp_distance (n_prm n) in
  if (dist =? 0) || (sub64 committed (al_start (n_log n)) <? dist) then ret tt
  else if (match n_snp n with None => true | Some s => dist <=? sub64 committed (sn_last_log_idx s) end)
          && negb (n_snp_busy n) then
    catch
     (modify (set_snp_busy true) ;;;
      c <- find_conf (N.to_nat (a_next (n_log n))) committed (n_config n) ;;
      s <- start_index_ ;;
      c <- (if (committed <? cc_log_idx c) && (0 <? cc_prev_log_idx c) && (cc_prev_log_idx c <? s) then
              match n_snp n with
              | None => system_exit (-1)
              | Some ls => ret (sn_config ls)
              end
            else if (committed <? cc_log_idx c) && (cc_prev_log_idx c =? 0) then system_exit (-1)
            else ret c) ;;
      t <- log_term_at committed ;;
      emit (ACreateSnapshot (mkSnp committed t 0 c)))
     (modify (set_snp_busy false))
  else ret tt.

(** src/raft_server.cxx:608-636: the state machine reports the snapshot done
    ([data]: its bytes) or failed *)
Definition on_snapshot_completed (s : snapshot) (data : list byte) (ok : bool) : M unit :=
  when ok
    (emit (ASnapshotMade s data) ;;;
     modify (set_snp (Some s)) ;;;
     pm <- get n_prm ;;
     when (pm_reserved pm <? sn_last_log_idx s)
       (log_compact (sn_last_log_idx s - pm_reserved pm) ;;; ret tt)) ;;;
  modify (set_snp_busy false).

(** src/raft_server.cxx:882-949: one iteration of the committing loop; an
    exception ends the process *)
Definition commit_step : M unit :=
  n <- get (fun n => n) ;;
  if (n_smc n <? n_quick n) && (n_smc n <? a_next (n_log n) - 1) then
    catch
     (let i := n_smc n + 1 in
      modify (set_smc i) ;;;
      e <- log_entry_at i ;;
      e <- deref e ;;
      (if beq (ev_type e) app_log then emit (ACommit i e)
       else if beq (ev_type e) conf_log then
         c <- lift (parse_cfg (ev_data e)) ;;
         emit (ASaveConfig c) ;;;
         modify (set_changing false) ;;;
         cur <- get n_config ;;
         when (cc_log_idx cur <? cc_log_idx c) (reconfigure c) ;;;
         catching <- get n_catching ;;
         id <- get n_id ;;
         when (catching && match cfg_server c id with Some _ => true | None => false end)
           (modify (set_catching false))
       else ret tt) ;;;
      snapshot_and_compact i)
     (system_exit (-1))
  else ret tt.

(** ** API calls *)

(** src/raft_server.cxx:1080-1100 *)
Definition replicate_log (now : N) (data : list byte) : M bool :=
  l <- is_leader now ;;
  if negb l then ret false
  else
    t <- get n_term ;;
    log_append (mkEV t app_log data) ;;;
    request_append_entries ;;;
    ret false.

(** src/raft_server.cxx:989-1051: the result is known at once, or the request
    has been forwarded and the result is that of the RPC.  Simplification: the
    client factory always makes a client (lines 1028-1031 are not modelled). *)
Inductive api_result := Now (accepted : bool) | Later.
Definition send_msg_to_leader (now : N) (q : req) : M api_result :=
  n <- get (fun n => n) ;;
  if (n_leader n =? -1)%Z then ret (Now false)
  else if (n_leader n =? n_id n)%Z then
    r <- process_req now q ;; ret (Now (rs_accepted r))
  else
    match find (fun c => fst c =? n_leader n)%Z (n_clients n) with
    | Some c => emit (AForward (n_leader n) (snd c) q) ;;; ret Later
    | None =>
        match cfg_server (n_config n) (n_leader n) with
        | None => ret (Now false)
        | Some s =>
            modify (set_clients ((n_leader n, sc_endpoint s) :: n_clients n)) ;;;
            emit (AForward (n_leader n) (sc_endpoint s) q) ;;; ret Later
        end
    end.
(** lines 1033-1048: what the asynchronous result is set to *)
Definition forward_result (r : option resp_msg) : bool * bool (* result, error *) :=
  match r with Some r => (rs_accepted r, false) | None => (false, true) end.

(** src/raft_server.cxx:951-987 *)
Definition api_req (t : byte) (es : list entry_val) : req := mkReq 0 t 0 0 0 0 0 es.
Definition add_srv (now : N) (c : srv_config) : M api_result :=
  send_msg_to_leader now (api_req add_server_request [mkEV 0 cluster_server (srv_bytes c)]).
Definition append_entries (now : N) (logs : list (list byte)) : M api_result :=
  match logs with
  | [] => ret (Now false)
  | _ => send_msg_to_leader now (api_req client_request (map (mkEV 0 app_log) logs))
  end.
Definition remove_srv (now : N) (id : Z) : M api_result :=
  send_msg_to_leader now (api_req remove_server_request [mkEV 0 cluster_server (int_b id)]).

(** ** Start of the process *)

(** src/raft_server.cxx:115-124 *)
Definition pending_config (d : disk) : bool :=
  existsb (fun e => beq (ev_type e) conf_log)
    (skipn (N.to_nat (N.max (dk_commit d + 1) (al_start (dk_log d)) - al_start (dk_log d))) (al_ents (dk_log d))).

(** src/raft_server.cxx:126-137 *)
Fixpoint start_peers (id : Z) (pm : params) (uid : N) (l : list srv_config) : list peer :=
  match l with
  | [] => []
  | s :: l =>
      if (sc_id s =? id)%Z then start_peers id pm uid l
      else
        let rest := start_peers id pm (uid + 1) l in
        new_peer uid s pm :: filter (fun p => negb (p_id p =? sc_id s)%Z) rest
  end.

(** src/raft_server.cxx:49-145: a server starting (or restarting) from [d] *)
Definition start_node (id : Z) (pm : params) (d : disk) : node :=
  let '(t, v) := match dk_state d with Some x => x | None => (0, (-1)%Z) end in
  let ps := start_peers id pm 0 (cc_servers (dk_config d)) in
  mkNode id pm Follower (-1) t v 0 [] true None (pending_config d) false 0 (dk_commit d) (dk_commit d)
    ps (dk_config d) None None (dk_snp d) false true 2147483647 (lenN (cc_servers (dk_config d))) [] d.

(** ** Events *)
Inductive event :=
| EElection                                        (* the election timer fires *)
| EHeartbeat (id : Z)                              (* the heartbeat timer of a peer fires *)
| ERequest (now : N) (q : req)                     (* a request arrives *)
| ERpc (now : N) (uid : N) (ext : bool) (q : req) (r : option resp_msg)  (* an RPC completes or fails *)
| ERetry (uid : N) (q : req)                       (* a delayed retry is due *)
| ECommit                                          (* the committing thread does one iteration *)
| ESnapshot (s : snapshot) (data : list byte) (ok : bool)  (* the state machine finishes a snapshot *)
| EReplicate (now : N) (data : list byte)          (* API: replicate_log *)
| EAppend (now : N) (logs : list (list byte))      (* API: append_entries *)
| EAddSrv (now : N) (c : srv_config)               (* API: add_srv *)
| ERemoveSrv (now : N) (id : Z).                   (* API: remove_srv *)

Inductive answer := Nothing | Response (r : resp_msg) | Bool (b : bool) | Async (r : api_result).

Definition run_event (e : event) : M answer :=
  match e with
  | EElection => handle_election_timeout ;;; ret Nothing
  | EHeartbeat id => handle_hb_timeout id ;;; ret Nothing
  | ERequest now q => r <- process_req now q ;; ret (Response r)
  | ERpc now uid ext q r => rpc_done now uid ext q r ;;; ret Nothing
  | ERetry uid q => retry uid q ;;; ret Nothing
  | ECommit => commit_step ;;; ret Nothing
  | ESnapshot s data ok => on_snapshot_completed s data ok ;;; ret Nothing
  | EReplicate now data => b <- replicate_log now data ;; ret (Bool b)
  | EAppend now logs => r <- append_entries now logs ;; ret (Async r)
  | EAddSrv now c => r <- add_srv now c ;; ret (Async r)
  | ERemoveSrv now id => r <- remove_srv now id ;; ret (Async r)
  end.
