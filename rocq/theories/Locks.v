(** Which locks of a server each of its functions takes, and in which order.

    A server has: lock_ (a recursive mutex), peers_lock_ (a reader-writer
    lock), one mutex per peer, rpc_clients_lock_ and the log store's own
    recursive mutex (include/raft_server.hxx 113-150, include/peer.hxx 67,
    include/fs_log_store.hxx). The macros of include/pp_util.hxx 37-40 take
    them for the rest of a scope, so what matters about a function is its
    skeleton: the scopes it opens, and what it calls inside.

    Simplifications:
    - a skeleton lets a function leave early at any point ([Seq] may stop
      after its first part), so conditions, returns and exceptions are all
      covered without being modelled one by one;
    - which peer a scope locks is left open;
    - what is given to rpc_client::send, to the timers or to
      state_machine_->create_snapshot runs later on a thread of its own,
      except that a state machine may report its snapshot at once, on the
      commit thread;
    - commit_lock_, stopping_lock_ and the destructor are the subject of
      Committer.v; the constructor runs before any other thread exists. *)
From Coq Require Import NArith List Bool.
Import ListNotations.

Inductive lock :=
| Main                 (* lock_ *)
| PeersR               (* peers_lock_, shared *)
| PeersW               (* peers_lock_, exclusive *)
| Peer (p : N)         (* the mutex of a peer *)
| Clients              (* rpc_clients_lock_ *)
| Store.               (* store_lock_ of the log store *)

Inductive op := Acq (l : lock) | Rel (l : lock).

Inductive sk :=
| Nop
| Seq (a b : sk)
| Alt (a b : sk)
| Loop (a : sk)
| With (l : lock) (a : sk)
| WithPeer (a : sk).

(** The sequences of lock operations a skeleton can produce. *)
Inductive tr : sk -> list op -> Prop :=
| tr_nop : tr Nop []
| tr_seq : forall a b u v, tr a u -> tr b v -> tr (Seq a b) (u ++ v)
| tr_stop : forall a b u, tr a u -> tr (Seq a b) u
| tr_alt1 : forall a b u, tr a u -> tr (Alt a b) u
| tr_alt2 : forall a b u, tr b u -> tr (Alt a b) u
| tr_loop0 : forall a, tr (Loop a) []
| tr_loop : forall a u v, tr a u -> tr (Loop a) v -> tr (Loop a) (u ++ v)
| tr_with : forall l a u, tr a u -> tr (With l a) (Acq l :: u ++ [Rel l])
| tr_peer : forall p a u, tr a u -> tr (WithPeer a) (Acq (Peer p) :: u ++ [Rel (Peer p)]).

Fixpoint seqs (l : list sk) : sk :=
  match l with [] => Nop | a :: r => Seq a (seqs r) end.
Fixpoint alts (l : list sk) : sk :=
  match l with [] => Nop | a :: r => Alt a (alts r) end.

(** any number of calls of the log store; src/fs_log_store.cxx 154-646: each
    takes store_lock_ and calls nothing outside the store *)
Definition store : sk := Loop (With Store Nop).

(** ** src/raft_server.cxx, innermost functions first *)

(** term_for_log, 859-880 *)
Definition sk_term_for_log : sk := store.

(** create_sync_snapshot_req, 795-857: the whole body under the peer's lock *)
Definition sk_create_sync_snapshot_req : sk := WithPeer Nop.

(** create_append_entries_req, 638-696: lock_ (647), the peer's lock (655),
    then the snapshot request or the log *)
Definition sk_create_append_entries_req : sk :=
  seqs [With Main store; WithPeer Nop; Alt sk_create_sync_snapshot_req (Seq sk_term_for_log store)].

(** request_append_entries (peer), 360-371 *)
Definition sk_request_append_entries_1 : sk := Alt Nop sk_create_append_entries_req.

(** commit, 513-538: peers_lock_ shared (523) around the requests *)
Definition sk_commit : sk :=
  seqs [Alt Nop (With PeersR (Loop sk_request_append_entries_1)); store].

(** request_append_entries, 345-358: everything under peers_lock_ shared,
    also the call of commit of a server without peers *)
Definition sk_request_append_entries : sk :=
  With PeersR (Alt (Seq store sk_commit) (Loop sk_request_append_entries_1)).

(** become_leader, 430-464 *)
Definition sk_become_leader : sk :=
  seqs [With PeersR (Loop store); store; sk_request_append_entries].

(** request_vote, 302-343 *)
Definition sk_request_vote : sk :=
  seqs [With PeersR (Loop (Seq store sk_term_for_log)); Alt Nop sk_become_leader].

(** become_candidate, 238-255 *)
Definition sk_become_candidate : sk := sk_request_vote.

(** request_prevote, 257-300 *)
Definition sk_request_prevote : sk :=
  seqs [With PeersR Nop; Alt sk_become_candidate (With PeersR (Loop (Seq store sk_term_for_log)))].

(** handle_election_timeout, 174-236 *)
Definition sk_handle_election_timeout : sk :=
  With Main (alts [Nop; sk_request_prevote; sk_become_candidate]).

(** handle_hb_timeout, 373-397: the peer's lock (381) inside lock_ *)
Definition sk_handle_hb_timeout : sk :=
  With Main (Alt Nop (Seq sk_request_append_entries_1 (WithPeer Nop))).

(** become_follower, 473-494, and update_term, 496-511 *)
Definition sk_become_follower : sk := With PeersR Nop.
Definition sk_update_term : sk := Alt Nop sk_become_follower.

(** reconfigure, 698-787: shared for the comparison (708), then exclusive
    once for each server that is added (741) or removed (771) *)
Definition sk_reconfigure : sk :=
  seqs [With PeersR Nop; Loop (Seq store (With PeersW Nop)); Loop (With PeersW Nop)].

(** on_snapshot_completed, 608-636 *)
Definition sk_on_snapshot_completed : sk := Alt Nop (With Main store).

(** snapshot_and_compact, 540-606; the state machine may report at once *)
Definition sk_snapshot_and_compact : sk :=
  seqs [store; Alt Nop (Seq store sk_on_snapshot_completed)].

(** commit_in_bg, 882-949, without its waiting: one entry after the other *)
Definition sk_commit_in_bg : sk :=
  Loop (seqs [store; alts [Nop; With Main (Alt Nop sk_reconfigure)]; sk_snapshot_and_compact]).

(** is_leader, 1053-1078 *)
Definition sk_is_leader : sk := With PeersR Nop.

(** replicate_log, 1080-1100 *)
Definition sk_replicate_log : sk :=
  seqs [sk_is_leader; store; With Main sk_request_append_entries].

(** ** src/raft_server_req_handlers.cxx *)

(** handle_append_entries, 88-205 *)
Definition sk_handle_append_entries : sk :=
  seqs [Alt Nop sk_become_follower; store; sk_term_for_log; store; sk_commit].

(** handle_vote_req, handle_prevote_req 207-251, handle_leave_cluster_req 622-640 *)
Definition sk_handle_vote_req : sk := store.

(** handle_cli_req, 253-285 *)
Definition sk_handle_cli_req : sk :=
  seqs [sk_is_leader; store; sk_request_append_entries].

(** handle_install_snapshot_req, 300-346, handle_snapshot_sync_req, 348-408 *)
Definition sk_handle_install_snapshot_req : sk :=
  seqs [Alt Nop sk_become_follower; store; sk_reconfigure].

(** handle_rm_srv_req, 416-470 *)
Definition sk_handle_rm_srv_req : sk := seqs [With PeersR Nop; store].

(** invite_srv_to_join_cluster, 585-598 *)
Definition sk_invite : sk := store.

(** handle_add_srv_req, 472-513 *)
Definition sk_handle_add_srv_req : sk := seqs [With PeersR Nop; sk_invite; store].

(** handle_log_sync_req, 515-537 *)
Definition sk_handle_log_sync_req : sk := seqs [store; sk_commit; store].

(** sync_log_to_new_srv, 539-583 *)
Definition sk_sync_log_to_new_srv : sk :=
  Alt (Seq store sk_request_append_entries) (Seq store (Alt sk_create_sync_snapshot_req store)).

(** handle_join_cluster_req, 600-620 *)
Definition sk_handle_join_cluster_req : sk := seqs [sk_reconfigure; store].

(** rm_srv_from_cluster, 642-664 *)
Definition sk_rm_srv_from_cluster : sk := seqs [store; sk_request_append_entries].

(** process_req, 24-86: everything under lock_ (38) *)
Definition sk_process_req : sk :=
  With Main (Seq sk_update_term
    (alts [sk_handle_append_entries; sk_handle_vote_req; sk_handle_cli_req;
           sk_handle_add_srv_req; sk_handle_rm_srv_req; sk_handle_log_sync_req;
           sk_handle_join_cluster_req; sk_handle_install_snapshot_req])).

(** ** src/raft_server_resp_handlers.cxx *)

(** handle_append_entries_resp, 85-141: peers_lock_ shared to the end of the
    function, across the calls of commit and request_append_entries *)
Definition sk_handle_append_entries_resp : sk :=
  With PeersR (seqs [Alt (seqs [WithPeer Nop; store; sk_commit; store]) (WithPeer Nop);
                     Alt Nop sk_request_append_entries_1]).

(** handle_install_snapshot_resp, 143-196: the log store is asked (178)
    under the peer's lock *)
Definition sk_handle_install_snapshot_resp : sk :=
  With PeersR (seqs [Alt Nop (WithPeer store); Alt Nop sk_request_append_entries_1]).

(** handle_voting_resp, 198-239: become_leader under peers_lock_ shared *)
Definition sk_handle_voting_resp : sk := With PeersR (Alt Nop sk_become_leader).

(** handle_prevote_resp, 241-276: become_candidate under peers_lock_ shared *)
Definition sk_handle_prevote_resp : sk := With PeersR (Alt Nop sk_become_candidate).

(** handle_peer_resp, 24-83: peers_lock_ shared (34) without lock_, given
    back before lock_ is taken (56) *)
Definition sk_handle_peer_resp : sk :=
  seqs [With PeersR Nop;
        With Main (Seq sk_update_term
          (alts [sk_handle_voting_resp; sk_handle_append_entries_resp; sk_handle_install_snapshot_resp]))].

(** handle_ext_resp_err, 388-466: shared (398), given back, then exclusive
    (428), then rm_srv_from_cluster *)
Definition sk_handle_ext_resp_err : sk :=
  seqs [Alt Nop (With PeersR Nop); Alt Nop (Seq (With PeersW Nop) sk_rm_srv_from_cluster)].

(** handle_ext_resp, 278-386: everything under lock_ (280) *)
Definition sk_handle_ext_resp : sk :=
  With Main (alts [sk_handle_ext_resp_err; sk_sync_log_to_new_srv; sk_rm_srv_from_cluster; sk_handle_prevote_resp]).

(** send_msg_to_leader, 989-1051, and so add_srv, remove_srv, append_entries,
    951-987 *)
Definition sk_send_msg_to_leader : sk := Alt sk_process_req (With Clients Nop).

(** Everything that can be called from outside, or by a timer, or by the
    network, or by the state machine, and the commit thread. *)
Definition entry_points : sk :=
  alts [sk_process_req; sk_handle_peer_resp; sk_handle_ext_resp; sk_handle_election_timeout;
        sk_handle_hb_timeout; sk_commit_in_bg; sk_on_snapshot_completed; sk_is_leader;
        sk_replicate_log; sk_send_msg_to_leader].

(** ** Threads *)

(** A thread: the lock operations it will still do, and what it holds, the
    last taken first. *)
Record thread := { todo : list op; held : list lock }.

(** [l] can be taken by a thread that holds [own] next to [others]. The two
    recursive mutexes can be taken again by their owner. *)
Definition free (others : list thread) (own : list lock) (l : lock) : Prop :=
  match l with
  | Main | Store => forall t, In t others -> ~ In l (held t)
  | PeersR => ~ In PeersW own /\ forall t, In t others -> ~ In PeersW (held t)
  | PeersW => ~ In PeersW own /\ ~ In PeersR own /\
              forall t, In t others -> ~ In PeersW (held t) /\ ~ In PeersR (held t)
  | Peer _ | Clients => ~ In l own /\ forall t, In t others -> ~ In l (held t)
  end.

(** one step of one thread *)
Inductive move (others : list thread) : thread -> thread -> Prop :=
| mv_acq : forall l r h, free others h l ->
    move others {| todo := Acq l :: r; held := h |} {| todo := r; held := l :: h |}
| mv_rel : forall l r h,
    move others {| todo := Rel l :: r; held := l :: h |} {| todo := r; held := h |}.

(** one step of a server: one of its threads moves, or a new thread begins *)
Inductive sstep : list thread -> list thread -> Prop :=
| ss_move : forall a t b t', move (a ++ b) t t' -> sstep (a ++ t :: b) (a ++ t' :: b)
| ss_new : forall ts w, tr (Loop entry_points) w -> sstep ts (ts ++ [{| todo := w; held := [] |}]).

Inductive server : list thread -> Prop :=
| sv_none : server []
| sv_step : forall ts ts', server ts -> sstep ts ts' -> server ts'.
