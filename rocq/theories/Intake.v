(** * What a message passes before it is handled

    [Raft.run_event] starts where the handlers start.  The functions that call the
    handlers first write a line to the log, and that line contains the name of the
    message, [__msg_type_str[type]], for the type that was received.  The arguments
    of a log call are evaluated at every log level. *)

From Verif Require Import Base Buffer Codec CodecSpec Msg FsLogSpec Alog Raft.
Local Open Scope N_scope.

(** src/raft_server.cxx:27-47: the number of names *)
Definition names : N := 20.

(** the expression __msg_type_str[type] (src/raft_server_req_handlers.cxx:30,
    src/raft_server_resp_handlers.cxx:49 and :289) for the type byte of a message
    (src/asio_service.cxx:235 and :617 cast the byte to the enumeration unchecked) *)
Definition named (t : byte) : M unit := lift (if byteN t <? names then Ok tt else UB OutOfBoundsRead).

(** src/raft_server_req_handlers.cxx:24-84.  The second log call, :76, names the
    type of the answer the server has made itself. *)
Definition take_req (now : N) (q : req) : M resp_msg :=
  named (rq_type q) ;;;
  r <- process_req now q ;;
  named (rs_type r) ;;;
  ret r.

(** src/raft_server_resp_handlers.cxx:24-83: [Raft.handle_peer_resp] with the log
    call at its place *)
Definition take_peer_resp (now : N) (r : resp_msg) : M unit :=
  n <- get (fun n => n) ;;
  match find_peer (rs_src r) (n_peers n) with
  | None => ret tt
  | Some _ =>
      modify (upd_peer (PPeer (rs_src r)) (p_set_last_resp now)) ;;;
      named (rs_type r) ;;;
      up <- update_term (rs_term r) ;;
      if up then ret tt
      else if beq (rs_type r) vote_response then handle_voting_resp r
      else if beq (rs_type r) append_entries_response then handle_append_entries_resp r
      else if beq (rs_type r) install_snapshot_response then handle_install_snapshot_resp r
      else system_exit (-1)
  end.

(** src/raft_server_resp_handlers.cxx:278-386 *)
Definition take_ext_resp (r : resp_msg) : M unit := named (rs_type r) ;;; handle_ext_resp r.

(** src/peer.cxx:20-50: [Raft.rpc_done] with the functions above *)
Definition take_rpc (now : N) (uid : N) (ext : bool) (q : req) (result : option resp_msg) : M unit :=
  n <- get (fun n => n) ;;
  match live_ref uid n with
  | None => ub UseAfterFree
  | Some ref =>
      when (beq (rq_type q) append_entries_request || beq (rq_type q) install_snapshot_request)
        (modify (upd_peer ref (p_set_busy false))) ;;;
      match result with
      | Some r =>
          modify (upd_peer ref (p_resume (n_prm n))) ;;;
          if ext then take_ext_resp r else take_peer_resp now r
      | None =>
          modify (upd_peer ref (p_slow_down (n_prm n))) ;;;
          when ext (handle_ext_resp_err q)
      end
  end.

(** what the outside can do to a server, from the first line of the code on *)
Definition take_event (e : event) : M answer :=
  match e with
  | ERequest now q => r <- take_req now q ;; ret (Response r)
  | ERpc now uid ext q r => take_rpc now uid ext q r ;;; ret Nothing
  | _ => run_event e
  end.
