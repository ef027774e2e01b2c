(** * The listener and its sessions

    The accept loop of src/asio_service.cxx:309-385 and the life of a session,
    :134-307, as steps that interleave.  The bytes of a request are read by
    [Rpc.session_step].

    Simplifications: the completion handlers of asio run to their next asynchronous
    call without interruption, except that closing the acceptor from another thread may come
    between the test of is_open and async_accept; a read that is served in several
    pieces is one step, taken when the whole request is there; writing an answer is one step;
    active_sessions_ is left out, since nothing is ever put into it. *)

From Verif Require Import Base Buffer Codec Msg Rpc.
Local Open Scope N_scope.

(** what a session waits for: the next request, the handler, its answer to be
    written, nothing any more *)
Inductive phase := Reading | Handling | Writing (r : resp_msg) | Closed.

(** src/asio_service.cxx:301-306: the header buffer, the buffer for log data, and the bytes that
    have arrived at the socket and have not been read; [s_handler] names the msg_handler *)
Record session := mkSess { s_hdr : block; s_log : block; s_in : list byte; s_phase : phase; s_handler : N }.

(** One run of the accept loop, src/asio_service.cxx:335-361.  [LCheck]: before the test of line 337.
    [LArm]: after the test.  [LWait]: async_accept is pending.  [LDone]: its handler is
    due, with a connection or with an error. *)
Inductive loop := LCheck | LArm | LWait (h : N) | LDone (h : N) (ok : bool).

Record listener := mkListener {
  l_open : bool;             (* acceptor_.is_open() *)
  l_handler : N;             (* handler_, the last one given to listen *)
  l_loops : list loop;
  l_sess : list session      (* the sessions started, in the order they were started *)
}.
(** src/asio_service.cxx:313-321: the acceptor is open from the constructor on *)
Definition new_listener (h : N) : listener := mkListener true h [] [].

(** what can be seen from outside *)
Inductive out :=
| OHanded (i : nat) (h : N) (q : req_msg raw_entry)   (* process_req of handler [h] is called *)
| OWrote (i : nat) (bs : list byte)                   (* bytes written to the connection *)
| OClosed (i : nat).                                  (* the connection is closed *)

(** what process_req did *)
Inductive returned := RAnswer (r : resp_msg) | RNull | RThrew.

Inductive move :=
| MListen (h : N)                   (* listen(handler) *)
| MStop                             (* stop() *)
| MLoop (k : nat)                   (* accept loop [k] takes its next step *)
| MConnect (k : nat)                (* a connection is accepted for loop [k] *)
| MFail (k : nat)                   (* accepting fails *)
| MArrive (i : nat) (bs : list byte)  (* bytes arrive on connection [i] *)
| MRead (i : nat)                   (* session [i] reads a request *)
| MBroken (i : nat)                 (* reading fails: the peer has closed, the connection is reset *)
| MReturn (i : nat) (r : returned)  (* process_req returns *)
| MWritten (i : nat) (ok : bool).   (* the answer has been written, or writing has failed *)

Fixpoint upd {A} (k : nat) (x : A) (l : list A) : list A :=
  match l, k with
  | [], _ => []
  | _ :: l, O => x :: l
  | y :: l, S k => y :: upd k x l
  end.
Definition set_loops (v : list loop) (s : listener) : listener := mkListener (l_open s) (l_handler s) v (l_sess s).
Definition set_sess (v : list session) (s : listener) : listener := mkListener (l_open s) (l_handler s) (l_loops s) v.
Definition set_loop (k : nat) (x : loop) (s : listener) : listener := set_loops (upd k x (l_loops s)) s.
Definition set_session (i : nat) (x : session) (s : listener) : listener := set_sess (upd i x (l_sess s)) s.
Definition to_phase (p : phase) (x : session) : session := mkSess (s_hdr x) (s_log x) (s_in x) p (s_handler x).

(** acceptor_.close(), src/asio_service.cxx:325: pending accepts end with an error *)
Definition aborted (x : loop) : loop := match x with LWait h => LDone h false | _ => x end.

(** src/asio_service.cxx:137-146: a new session; [junk] is the old content of fresh memory *)
Definition new_session (junk : nat -> byte) (h : N) : res session :=
  res_bind (alloc junk 0) (fun log => res_bind (alloc junk RPC_REQ_HEADER_SIZE) (fun hdr => Ok (mkSess hdr log [] Reading h))).

(** the step of an accept loop; [None]: the loop has ended *)
Definition loop_step (junk : nat -> byte) (k : nat) (x : loop) (s : listener) : option listener :=
  match x with
  (* src/asio_service.cxx:337-340 *)
  | LCheck => Some (if l_open s then set_loop k LArm s else set_loops (firstn k (l_loops s) ++ skipn (S k) (l_loops s)) s)
  (* src/asio_service.cxx:342-346: the session takes the handler that is set now; async_accept
     on an acceptor that has been closed completes with an error *)
  | LArm => Some (set_loop k (if l_open s then LWait (l_handler s) else LDone (l_handler s) false) s)
  | LWait _ => None
  (* src/asio_service.cxx:347-360 *)
  | LDone h true =>
      match new_session junk h with
      | Ok x => Some (set_loop k LCheck (set_sess (l_sess s ++ [x]) s))
      | _ => None
      end
  | LDone h false => Some (set_loop k LCheck s)
  end.

Definition step (junk : nat -> byte) (m : move) (s : listener) : option (listener * list out) :=
  match m with
  (* src/asio_service.cxx:328-332 *)
  | MListen h => Some (mkListener (l_open s) h (l_loops s ++ [LCheck]) (l_sess s), [])
  (* src/asio_service.cxx:323-326 *)
  | MStop => Some (mkListener false (l_handler s) (map aborted (l_loops s)) (l_sess s), [])
  | MLoop k =>
      match nth_error (l_loops s) k with
      | Some x => option_map (fun s => (s, [])) (loop_step junk k x s)
      | None => None
      end
  | MConnect k =>
      match nth_error (l_loops s) k with
      | Some (LWait h) => Some (set_loop k (LDone h true) s, [])
      | _ => None
      end
  | MFail k =>
      match nth_error (l_loops s) k with
      | Some (LWait h) => Some (set_loop k (LDone h false) s, [])
      | _ => None
      end
  | MArrive i bs =>
      match nth_error (l_sess s) i with
      | Some x => Some (set_session i (mkSess (s_hdr x) (s_log x) (s_in x ++ bs) (s_phase x) (s_handler x)) s, [])
      | None => None
      end
  (* src/asio_service.cxx:158-198 and :213-255 *)
  | MRead i =>
      match nth_error (l_sess s) i with
      | Some x =>
          match s_phase x with
          | Reading =>
              match session_step junk (s_hdr x) (s_log x) (s_in x) with
              | SWait => None
              | SStop => Some (set_session i (to_phase Closed x) s, [OClosed i])
              | SUB _ => None
              | SReq q hdr log rest => Some (set_session i (mkSess hdr log rest Handling (s_handler x)) s, [OHanded i (s_handler x) q])
              end
          | _ => None
          end
      | None => None
      end
  (* src/asio_service.cxx:191-196 and :219-223 *)
  | MBroken i =>
      match nth_error (l_sess s) i with
      | Some x => match s_phase x with Reading => Some (set_session i (to_phase Closed x) s, [OClosed i]) | _ => None end
      | None => None
      end
  (* src/asio_service.cxx:256-274 and :293-297 *)
  | MReturn i r =>
      match nth_error (l_sess s) i with
      | Some x =>
          match s_phase x, r with
          | Handling, RAnswer r => Some (set_session i (to_phase (Writing r) x) s, [])
          | Handling, _ => Some (set_session i (to_phase Closed x) s, [OClosed i])
          | _, _ => None
          end
      | None => None
      end
  (* src/asio_service.cxx:263-290 *)
  | MWritten i ok =>
      match nth_error (l_sess s) i with
      | Some x =>
          match s_phase x with
          | Writing r =>
              if ok then
                match resp_encode junk r with
                | Ok bs => Some (set_session i (to_phase Reading x) s, [OWrote i bs])
                | _ => None
                end
              else Some (set_session i (to_phase Closed x) s, [OClosed i])
          | _ => None
          end
      | None => None
      end
  end.

(** executions *)
Fixpoint run (junk : nat -> byte) (ms : list move) (s : listener) : option (listener * list out) :=
  match ms with
  | [] => Some (s, [])
  | m :: ms =>
      match step junk m s with
      | Some (s, o) => option_map (fun x => (fst x, o ++ snd x)) (run junk ms s)
      | None => None
      end
  end.
