(** * Client: the TCP client and the connection it talks through

    src/asio_service.cxx:384-556 (asio_rpc_client) and, on the other end,
    src/asio_service.cxx:152-299 (rpc_session).  A client belongs to one remote
    endpoint; several threads call [send], and the threads of the io_service run
    the handlers of the asynchronous operations the client has started, in any
    order.  What the bytes of a message are is the subject of [Rpc]; here a
    message goes through a connection as a whole.  Each call of [send] gets a
    number (its ticket), so that one can say which handler was called with the
    answer to which request.

    Simplifications: one step is one handler (the code has no lock here: two
    handlers that touch the socket at the same time are a data race, nothing is
    claimed about that); the messages of two writes that are under way at the
    same time do not mix; reads of one connection take the answers in the order
    in which they were started; a handler given to [send] does nothing to the
    client itself (it may call [send] right afterwards).

    asio is modelled by its documentation: a socket is open from the moment
    async_connect is started; async_connect closes a socket that is open before
    it opens it again; after a failed async_connect the socket stays open; an
    operation on a socket that is not connected, or has been closed, may only
    fail. *)

From Coq Require Import List Arith Bool.
Import ListNotations.

(** One direction each of a connection: the requests (tickets) that have been
    written and the session has not read, the answers that the session has
    written and the client has not read; an answer is remembered with the ticket
    of the request it answers. *)
Record wire (R : Type) := mkWire { w_up : bool; w_in : list nat; w_out : list (nat * R) }.
Arguments mkWire {R}.
Arguments w_up {R}.
Arguments w_in {R}.
Arguments w_out {R}.
Definition new_wire {R} : wire R := mkWire false [] [].

(** A pending asynchronous operation: the ticket it works for, and the number of
    the connection it was started on.
    [Resolve]: lines 405-425.  [Connect]: lines 412-416.  [Write]: lines 462-468,
    and whether the bytes have gone out.  [Read]: lines 503-511, on the socket as
    it is at that time; a read of a closed socket only fails. *)
Inductive op := Resolve (k : nat) | Connect (k g : nat) | Write (k g : nat) (out : bool) | Read (k : nat) (g : option nat).
Definition ticket (o : op) : nat := match o with Resolve k | Connect k _ | Write k _ _ | Read k _ => k end.

(** what a handler is called with: the response (with the ticket of the request
    that the server was answering), or an rpc_exception *)
Inductive outcome (R : Type) := Answer (j : nat) (r : R) | Failed.
Arguments Answer {R}.
Arguments Failed {R}.

Record client (R : Type) := mkClient {
  c_sock : option nat;            (* the open socket: the number of its connection *)
  c_wires : nat -> wire R;
  c_conns : nat;                  (* connections so far *)
  c_sent : nat;                   (* calls of send so far: the next ticket *)
  c_ops : list op;                (* pending operations, oldest first *)
  c_calls : list (nat * outcome R) (* calls of handlers, oldest first *)
}.
Arguments mkClient {R}.
Arguments c_sock {R}.
Arguments c_wires {R}.
Arguments c_conns {R}.
Arguments c_sent {R}.
Arguments c_ops {R}.
Arguments c_calls {R}.

(** src/asio_service.cxx:387-390 *)
Definition new_client {R} : client R := mkClient None (fun _ => new_wire) 0 0 [] [].

Definition set_wire {R} (ws : nat -> wire R) (g : nat) (w : wire R) : nat -> wire R :=
  fun h => if h =? g then w else ws h.

(** src/asio_service.cxx:400-470: send, for the ticket [k] *)
Definition start_send {R} (k : nat) (c : client R) (ops : list op) : client R :=
  mkClient (c_sock c) (c_wires c) (c_conns c) (c_sent c)
    (ops ++ [match c_sock c with None => Resolve k | Some g => Write k g false end]) (c_calls c).

(** what happens next *)
Inductive event (R : Type) :=
| Send                              (* somebody calls send *)
| Done (i : nat) (ok : bool)        (* the i-th pending operation completes, its handler runs *)
| GoesOut (i : nat)                 (* the bytes of the i-th pending operation, a write, are in the connection *)
| Serve (g : nat) (r : R).          (* the session of connection g reads a request, handles it and writes the response r *)
Arguments Send {R}.
Arguments Done {R}.
Arguments GoesOut {R}.
Arguments Serve {R}.

Definition remove_nth {A} (i : nat) (l : list A) : list A := firstn i l ++ skipn (S i) l.
Definition reads (g : nat) (o : op) : bool := match o with Read _ (Some h) => h =? g | _ => false end.

Definition step {R} (c : client R) (e : event R) : option (client R) :=
  match e with
  (* lines 400-470 *)
  | Send => Some (start_send (c_sent c) (mkClient (c_sock c) (c_wires c) (c_conns c) (S (c_sent c)) (c_ops c) (c_calls c)) (c_ops c))
  | Done i ok =>
      match nth_error (c_ops c) i with
      | None => None
      | Some o =>
          let rest := remove_nth i (c_ops c) in
          (* the handler gets an exception; [sock] is the socket afterwards *)
          let fail sock k := Some (mkClient sock (c_wires c) (c_conns c) (c_sent c) rest (c_calls c ++ [(k, Failed)])) in
          match o, ok with
          (* lines 410-417 *)
          | Resolve k, true =>
              Some (mkClient (Some (c_conns c)) (set_wire (c_wires c) (c_conns c) new_wire) (S (c_conns c)) (c_sent c)
                      (rest ++ [Connect k (c_conns c)]) (c_calls c))
          (* lines 418-424 *)
          | Resolve k, false => fail (c_sock c) k
          (* lines 479-482 *)
          | Connect k g, true =>
              Some (start_send k (mkClient (c_sock c) (set_wire (c_wires c) g (mkWire true (w_in (c_wires c g)) (w_out (c_wires c g))))
                                    (c_conns c) (c_sent c) (c_ops c) (c_calls c)) rest)
          (* lines 483-489 *)
          | Connect k g, false => fail (c_sock c) k
          (* lines 500-511 *)
          | Write k _ true, true =>
              Some (mkClient (c_sock c) (c_wires c) (c_conns c) (c_sent c)
                      (rest ++ [Read k (c_sock c)]) (c_calls c))
          | Write _ _ false, true => None
          (* lines 512-519 *)
          | Write k _ _, false => fail None k
          (* lines 529-540: the oldest read of the connection *)
          | Read k None, true => None
          | Read k (Some g), true =>
              if existsb (reads g) (firstn i (c_ops c)) then None
              else match w_out (c_wires c g) with
                   | [] => None
                   | (j, r) :: out =>
                       Some (mkClient (c_sock c) (set_wire (c_wires c) g (mkWire (w_up (c_wires c g)) (w_in (c_wires c g)) out))
                               (c_conns c) (c_sent c) rest (c_calls c ++ [(k, Answer j r)]))
                   end
          (* lines 541-548 *)
          | Read k _, false => fail None k
          end
      end
  | GoesOut i =>
      match nth_error (c_ops c) i with
      | Some (Write k g false) =>
          let w := c_wires c g in
          if w_up w then
            Some (mkClient (c_sock c) (set_wire (c_wires c) g (mkWire true (w_in w ++ [k]) (w_out w))) (c_conns c) (c_sent c)
                    (firstn i (c_ops c) ++ Write k g true :: skipn (S i) (c_ops c)) (c_calls c))
          else None
      | _ => None
      end
  (* lines 228-282: one request after the other, each answered before the next is read *)
  | Serve g r =>
      let w := c_wires c g in
      match w_in w with
      | [] => None
      | k :: rest =>
          Some (mkClient (c_sock c) (set_wire (c_wires c) g (mkWire (w_up w) rest (w_out w ++ [(k, r)]))) (c_conns c) (c_sent c)
                  (c_ops c) (c_calls c))
      end
  end.

(** every history from [c0]; [ok] restricts the events *)
Inductive path {R} (ok : client R -> event R -> Prop) (c0 : client R) : client R -> Prop :=
| P_nil : path ok c0 c0
| P_step : forall c e c', path ok c0 c -> ok c e -> step c e = Some c' -> path ok c0 c'.
Definition any {R} (c : client R) (e : event R) : Prop := True.
(** one request at a time: send is called only when the client has nothing to do *)
Definition serial {R} (c : client R) (e : event R) : Prop := e = Send -> c_ops c = [].

Fixpoint exec {R} (c : client R) (es : list (event R)) : option (client R) :=
  match es with
  | [] => Some c
  | e :: es => match step c e with Some c' => exec c' es | None => None end
  end.
