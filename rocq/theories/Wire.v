(** * Wire: a cluster whose messages travel as bytes

    Cluster.v hands messages from server to server.  Here they go through src/asio_service.cxx:
    the sender writes the bytes of Rpc.v's rpc_encode into a connection, one request after the
    other (asio_rpc_client::send, src/asio_service.cxx:387-466); the receiver's session
    (rpc_session, src/asio_service.cxx:134-307) makes requests of the bytes that reach it; the
    response goes back as the bytes of resp_encode (:261-269) and is read by resp_decode
    (:531-538).  A connection may break at any byte.  Everything else is as in Cluster.v.
    Not modelled: two requests written to one connection at the same time. *)

From Verif Require Import Base Buffer BufferSpec Codec CodecSpec Msg FsLogStore FsLogSpec Rpc RpcSpec RpcProofs Raft NodeSpec Cluster.
Local Open Scope N_scope.

(** The requests [qs] are written to a connection; some of the bytes, [p], reach the session,
    which makes [got] of them.  The objects written hold what [qs] says ([req_is]); [junk] is
    what fresh memory holds; [hdr] and [log] are the session's buffers, as earlier requests
    have left them. *)
Definition on_wire (qs got : list req) : Prop :=
  exists rs bss p rest n junk hdr log l s,
    Forall2 req_is qs rs /\ Forall2 (fun r bs => exists junk, rpc_encode junk r = Ok bs) rs bss /\
    concat bss = p ++ rest /\ idle hdr /\
    session_run junk n hdr log p = (l, s) /\ Forall2 req_is got l.

(** The response [r] is written to a connection and arrives as [r']. *)
Definition comes_back (r r' : resp_msg) : Prop :=
  exists junk junk' bs, resp_encode junk r = Ok bs /\ resp_decode junk' bs = Ok r'.

Section Wire.
  Variable servers : list srv_config.
  Variable prm : Z -> params.
  Notation ids := (ids servers).

  (** requests that server [k] has sent to server [i] *)
  Definition written (w : world) (k i : Z) (qs : list req) : Prop :=
    forall q, In q qs -> exists uid ext, sent w k uid ext q /\ rq_dst q = i.

  (** what may happen at server [i]: requests and responses are what has become of bytes *)
  Definition wpossible (w : world) (i : Z) (e : event) : Prop :=
    match e with
    | ERequest _ q =>
        exists qs got, on_wire qs got /\ In q got /\
          ((exists k, In k ids /\ written w k i qs) \/ Forall (fun x => client_req x /\ req_ok x) qs)
    | ERpc _ uid ext q (Some r) =>
        sent w i uid ext q /\ In (rq_dst q) ids /\
        exists qs got m q' r0, written w i (rq_dst q) qs /\ on_wire qs got /\
          nth_error qs m = Some q /\ nth_error got m = Some q' /\
          answered w (rq_dst q) q' r0 /\ comes_back r0 r
    | _ => possible servers w i e
    end.

  Inductive wstep (w : world) : world -> Prop :=
  | B_event : forall i n e r n' l, In i ids -> w_sys w i = Up n -> wpossible w i e ->
      run_event e n = (r, n', l) -> goes_on r = true ->
      wstep w (next_world w i (Up n') [mkObs e l (answer_of r)])
  | B_stop : forall i n e r n' l, In i ids -> w_sys w i = Up n -> wpossible w i e ->
      run_event e n = (r, n', l) -> goes_on r = false ->
      wstep w (next_world w i (Down (n_disk n')) [mkObs e l None])
  | B_crash : forall i n e r n' p q, In i ids -> w_sys w i = Up n -> wpossible w i e ->
      run_event e n = (r, n', p ++ q) ->
      wstep w (next_world w i (Down (fold_left disk_apply p (n_disk n))) [mkObs e p None])
  | B_start : forall i d, In i ids -> w_sys w i = Down d ->
      wstep w (next_world w i (Up (start_node i (prm i) d)) []).
  Inductive wreach (w0 : world) : world -> Prop :=
  | WReach_0 : wreach w0 w0
  | WReach_S : forall w w', wreach w0 w -> wstep w w' -> wreach w0 w'.
End Wire.

(** no answer to a piece of a snapshot names a byte beyond 2^64 *)
Definition pieces_fit (w : world) : Prop :=
  forall j q r, answered w j q r -> rs_type r = install_snapshot_response -> rs_next_idx r < two64.
