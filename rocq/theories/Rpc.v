(** * Rpc: the TCP framing of src/asio_service.cxx

    The client side (asio_rpc_client::send, response_read) and the server side
    (rpc_session::start, read_complete).  The connection is a byte stream:
    asio::async_write sends all bytes of a buffer in order, asio::async_read
    completes once it has all requested bytes.  Not modelled: resolving,
    connecting, socket errors (each of which only leads to stop() or to an
    rpc_exception), and two requests being written to one client socket at the
    same time.  Casting a byte to msg_type/log_val_type is the identity. *)

From Verif Require Import Base Buffer Codec Msg.
Local Open Scope N_scope.
Open Scope bm_scope.

(** src/asio_service.cxx:34, :38 *)
Definition RPC_REQ_HEADER_SIZE : N := 3 * 4 + 8 * 4 + 1.
Definition RPC_RESP_HEADER_SIZE : N := 4 * 2 + 8 * 2 + 2.

(** ** Client side *)

(** src/asio_service.cxx:434-440: the buffer built for one log entry.
    log_entry::get_buf throws if the entry has no buffer
    (include/log_entry.hxx:82-90).  The payload buffer is left rewound by the
    code; here the rewound buffer is not returned (nothing later in send reads
    it). *)
Definition rpc_entry_buf (junk : nat -> byte) (e : raw_entry) : res block :=
  match re_buf e with
  | None => Throw RuntimeError
  | Some p =>
      build junk (8 + 1 + 4 + buf_size p)
        (put_ulong (re_term e) ;;;
         put_byte (re_type e) ;;;
         put_int (to_int32 (Z.of_N (buf_size p))) ;;;
         put_buf (set_pos p 0))
  end.

(** src/asio_service.cxx:427-443: the loop over the entries with the int32
    accumulator log_data_size; signed overflow is undefined behaviour *)
Fixpoint rpc_entry_bufs (junk : nat -> byte) (l : list raw_entry) (acc : Z) : res (list block * Z) :=
  match l with
  | [] => Ok ([], acc)
  | e :: l =>
      res_bind (rpc_entry_buf junk e) (fun b =>
      let acc' := (acc + to_int32 (Z.of_N (buf_size b)))%Z in
      if (2147483647 <? acc')%Z then UB SignedOverflow else
      res_bind (rpc_entry_bufs junk l acc') (fun '(bs, total) => Ok (b :: bs, total)))
  end.

(** src/asio_service.cxx:424-466: everything written to the socket *)
Definition rpc_encode (junk : nat -> byte) (q : req_msg raw_entry) : res (list byte) :=
  res_bind (rpc_entry_bufs junk (rq_entries q) 0) (fun '(bufs, log_data_size) =>
  if (2147483647 <? Z.of_N RPC_REQ_HEADER_SIZE + log_data_size)%Z then UB SignedOverflow else
  res_bind (build junk (ulong_of_Z (Z.of_N RPC_REQ_HEADER_SIZE + log_data_size))
    (put_byte (rq_type q) ;;;
     put_int (rq_src q) ;;;
     put_int (rq_dst q) ;;;
     put_ulong (rq_term q) ;;;
     put_ulong (rq_last_term q) ;;;
     put_ulong (rq_last_idx q) ;;;
     put_ulong (rq_commit q) ;;;
     put_int log_data_size ;;;
     put_all bufs)) stream_out).

(** src/asio_service.cxx:531-538: decoding of a response of
    RPC_RESP_HEADER_SIZE bytes (exceptions cannot occur, see C11) *)
Definition resp_decode (junk : nat -> byte) (bs : list byte) : res resp_msg :=
  res_bind (alloc junk RPC_RESP_HEADER_SIZE) (fun b =>
  res_bind (stream_in b bs) (fun b =>
  fst ((t <- get_byte ;; src <- get_int ;; dst <- get_int ;; term <- get_ulong ;;
        nxt <- get_ulong ;; acc <- get_byte ;;
        bret (mkResp term t src dst nxt (Byte.eqb acc x01))) b))).

(** ** Server side *)

(** src/asio_service.cxx:261-269: the bytes written for a response *)
Definition resp_encode (junk : nat -> byte) (r : resp_msg) : res (list byte) :=
  res_bind (build junk RPC_RESP_HEADER_SIZE
    (put_byte (rs_type r) ;;; put_int (rs_src r) ;;; put_int (rs_dst r) ;;;
     put_ulong (rs_term r) ;;; put_ulong (rs_next_idx r) ;;;
     put_byte (if rs_accepted r then x01 else x00))) stream_out.

(** src/asio_service.cxx:244-253: the loop `while (log_data_->size() >
    log_data_->pos())`.  Every iteration that does not fail consumes at least
    13 bytes; the recursion is over a bound on the number of iterations. *)
Fixpoint read_entries (junk : nat -> byte) (fuel : nat) (log : block) : res (list raw_entry) * block :=
  if buf_pos log <? buf_size log then
    match fuel with
    | O => (Throw RuntimeError, log)
    | S fuel =>
        (term <- get_ulong ;;
         t <- get_byte ;;
         val_size <- get_int ;;
         (fun log =>
           match alloc junk (ulong_of_Z val_size) with
           | Throw e => (Throw e, log)
           | UB u => (UB u, log)
           | Ok buf =>
               match get_buf log buf with
               | (Ok _, log, buf) =>
                   match read_entries junk fuel log with
                   | (Ok l, log) => (Ok (mkRaw term t (Some buf) :: l), log)
                   | (r, log) => (r, log)
                   end
               | (Throw e, log, _) => (Throw e, log)
               | (UB u, log, _) => (UB u, log)
               end
           end)) log
    end
  else (Ok [], log).

(** src/asio_service.cxx:228-254: decoding of header_ and log_data_ *)
Definition read_complete (junk : nat -> byte) (hdr log : block) : res (req_msg raw_entry * block) * block :=
  (bseek 0 ;;;
   t <- get_byte ;; src <- get_int ;; dst <- get_int ;; term <- get_ulong ;;
   last_term <- get_ulong ;; last_idx <- get_ulong ;; commit_idx <- get_ulong ;;
   sz <- get_int ;;
   if (0 <? sz)%Z then
     let '(r, log) := read_entries junk (S (N.to_nat (buf_size log))) (set_pos log 0) in
     match r with
     | Ok l => bret (mkReq term t src dst last_term last_idx commit_idx l, log)
     | Throw e => bfail (Throw e)
     | UB u => bfail (UB u)
     end
   else bret (mkReq term t src dst last_term last_idx commit_idx [], log)) hdr.

(** What a session does with its incoming byte stream: wait for more bytes,
    close the connection, or hand a request to the message handler and go on
    with the rest of the stream (the header buffer is rewound after the response
    has been sent, src/asio_service.cxx:277-278). *)
Inductive sess :=
| SWait
| SStop
| SUB (u : ubkind)
| SReq (q : req_msg raw_entry) (hdr log : block) (rest : list byte).

(** src/asio_service.cxx:158-198 *)
Definition session_step (junk : nat -> byte) (hdr log : block) (stream : list byte) : sess :=
  if lenN stream <? RPC_REQ_HEADER_SIZE then SWait else
  let h := N.to_nat RPC_REQ_HEADER_SIZE in
  match stream_in hdr (firstn h stream) with
  | Throw _ => SStop
  | UB u => SUB u
  | Ok hdr =>
      let stream := skipn h stream in
      match get_int (set_pos hdr (RPC_REQ_HEADER_SIZE - 4)) with
      | (Throw _, _) => SStop
      | (UB u, _) => SUB u
      | (Ok data_size, hdr) =>
          if ((data_size <? 0) || (16777216 <? data_size))%Z%bool then SStop
          else
            let finish (log : block) (rest : list byte) :=
              match read_complete junk hdr log with
              | (Ok (q, log), hdr) => SReq q (set_pos hdr 0) log rest
              | (Throw _, _) => SStop
              | (UB u, _) => SUB u
              end in
            if (data_size =? 0)%Z then finish log stream
            else match alloc junk (ulong_of_Z data_size) with
                 | Throw _ => SStop
                 | UB u => SUB u
                 | Ok log =>
                     if lenN stream <? Z.to_N data_size then SWait
                     else match stream_in log (firstn (Z.to_nat data_size) stream) with
                          | Throw _ => SStop
                          | UB u => SUB u
                          | Ok log => finish log (skipn (Z.to_nat data_size) stream)
                          end
                 end
      end
  end.

(** A session serving a stream: the requests handed to the handler, and how
    it ended (at most [n] requests are looked at). *)
Fixpoint session_run (junk : nat -> byte) (n : nat) (hdr log : block) (stream : list byte)
  : list (req_msg raw_entry) * sess :=
  match session_step junk hdr log stream with
  | SReq q hdr log rest =>
      match n with
      | O => ([], SReq q hdr log rest)
      | S n => let '(l, r) := session_run junk n hdr log rest in (q :: l, r)
      end
  | s => ([], s)
  end.
