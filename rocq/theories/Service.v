(** * Service: the logger files, stopping the service, its worker threads

    src/asio_service.cxx:46-98, 593-709 (asio_service_impl, fs_based_logger).  Lines are
    queued by any thread; a timer of the service makes a worker thread write the queues to
    the files; [stop] cancels that timer, which makes its handler run at once, and waits
    to be told by the handler.  Threads interleave step by step; a step is one access to
    shared data, or what is done under one lock.

    Simplifications: sequentially consistent memory (stopping_ is a plain bool: a data
    race in C++); [stopping_lock_] is taken by nobody but the one call of stop that has
    won the exchange of continue_, so it is left out; when the timer expires is not
    modelled, it may expire at any time; any number of worker threads; the destructor of
    a logger, which writes the rest of its queue, is not modelled. *)

From Coq Require Import List Arith Bool.
Import ListNotations.

Section Service.
  Variable line : Type.

  (** lines 88-98: the queue and the file *)
  Record logger := mkLogger { lg_queue : list line; lg_file : list line }.
  Definition new_logger : logger := mkLogger [] [].

  (** A run of flush_all_loggers (lines 624-644) or the place it has come to.
      [F_each i] holds logger_list_lock_ and is about to swap the queue of the i-th logger
      (lines 663-668); [F_write i l] still has to write [l] to its file (lines 670-675). *)
  Inductive flusher := F_start | F_arm | F_lock | F_each (i : nat) | F_write (i : nat) (l : list line) | F_stopping | F_notify | F_end.
  (** A call of stop (lines 646-658) *)
  Inductive stopper := S_cas | S_set | S_cancel | S_wait | S_waiting | S_woken | S_returned.

  Record service := mkService {
    s_continue : bool;
    s_stopping : bool;
    s_waits : nat;               (* waits pending on log_flush_tm_ *)
    s_ready : nat;               (* waits that are over and whose handler has not begun *)
    s_list : bool;               (* logger_list_lock_ is held *)
    s_loggers : list logger;
    s_flushers : list flusher;
    s_stops : list stopper
  }.

  (** src/asio_service.cxx:593-598 *)
  Definition started : service := mkService true false 1 0 false [] [] [].

  Inductive event :=
  | Log (i : nat) (x : line)     (* write_log on the i-th logger (lines 684-705) *)
  | New_logger                   (* create_logger (lines 762-771) *)
  | Expire                       (* the time of a wait is over *)
  | Handle                       (* a worker begins with a handler *)
  | Flush (k : nat)              (* the k-th run of flush_all_loggers goes on *)
  | Call_stop                    (* somebody calls stop *)
  | Stop (k : nat)               (* the k-th call of stop goes on *)
  | Spurious (k : nat).          (* its wait ends without a notification *)

  Fixpoint upd {A} (i : nat) (x : A) (l : list A) : list A :=
    match l, i with
    | [], _ => []
    | _ :: l, O => x :: l
    | y :: l, S i => y :: upd i x l
    end.
  Definition wake (s : stopper) : stopper := match s with S_waiting => S_woken | s => s end.

  Definition step (c : service) (e : event) : option service :=
    let '(mkService cont stopping waits ready lk ls fs ss) := c in
    match e with
    | Log i x =>
        match nth_error ls i with
        | Some g => Some (mkService cont stopping waits ready lk (upd i (mkLogger (lg_queue g ++ [x]) (lg_file g)) ls) fs ss)
        | None => None
        end
    | New_logger => if lk then None else Some (mkService cont stopping waits ready lk (ls ++ [new_logger]) fs ss)
    | Expire => match waits with S w => Some (mkService cont stopping w (S ready) lk ls fs ss) | O => None end
    | Handle => match ready with S r => Some (mkService cont stopping waits r lk ls (fs ++ [F_start]) ss) | O => None end
    | Flush k =>
        let goto f := upd k f fs in
        match nth_error fs k with
        (* line 626 *)
        | Some F_start => Some (mkService cont stopping waits ready lk ls (goto (if cont then F_arm else F_lock)) ss)
        (* lines 628-630: expires_after cancels what is pending *)
        | Some F_arm => Some (mkService cont stopping 1 (ready + waits) lk ls (goto F_lock) ss)
        (* line 634 *)
        | Some F_lock => if lk then None else Some (mkService cont stopping waits ready true ls (goto (F_each 0)) ss)
        (* lines 635-638, 663-668 *)
        | Some (F_each i) =>
            match nth_error ls i with
            | Some g => Some (mkService cont stopping waits ready lk (upd i (mkLogger [] (lg_file g)) ls) (goto (F_write i (lg_queue g))) ss)
            | None => Some (mkService cont stopping waits ready false ls (goto F_stopping) ss)
            end
        (* lines 670-675 *)
        | Some (F_write i (x :: l)) =>
            match nth_error ls i with
            | Some g => Some (mkService cont stopping waits ready lk (upd i (mkLogger (lg_queue g) (lg_file g ++ [x])) ls) (goto (F_write i l)) ss)
            | None => None
            end
        | Some (F_write i []) => Some (mkService cont stopping waits ready lk ls (goto (F_each (S i))) ss)
        (* line 640 *)
        | Some F_stopping => Some (mkService cont stopping waits ready lk ls (goto (if stopping then F_notify else F_end)) ss)
        (* line 642 *)
        | Some F_notify => Some (mkService cont stopping waits ready lk ls (goto F_end) (map wake ss))
        | Some F_end | None => None
        end
    | Call_stop => Some (mkService cont stopping waits ready lk ls fs (ss ++ [S_cas]))
    | Stop k =>
        let goto s := upd k s ss in
        match nth_error ss k with
        (* line 649 *)
        | Some S_cas => Some (mkService false stopping waits ready lk ls fs (goto (if cont then S_set else S_returned)))
        (* lines 651-652 *)
        | Some S_set => Some (mkService cont true waits ready lk ls fs (goto S_cancel))
        (* line 653 *)
        | Some S_cancel => Some (mkService cont stopping 0 (ready + waits) lk ls fs (goto S_wait))
        (* line 654: from here on notifications reach it *)
        | Some S_wait => Some (mkService cont stopping waits ready lk ls fs (goto S_waiting))
        (* lines 655-657 *)
        | Some S_woken => Some (mkService cont stopping waits ready lk ls fs (goto S_returned))
        | Some S_waiting | Some S_returned | None => None
        end
    | Spurious k =>
        match nth_error ss k with
        | Some S_waiting => Some (mkService cont stopping waits ready lk ls fs (upd k S_woken ss))
        | _ => None
        end
    end.

  Fixpoint exec (c : service) (es : list event) : option service :=
    match es with
    | [] => Some c
    | e :: es => match step c e with Some c' => exec c' es | None => None end
    end.
End Service.
Arguments mkLogger {line}.
Arguments lg_queue {line}.
Arguments lg_file {line}.
Arguments F_start {line}.
Arguments F_arm {line}.
Arguments F_lock {line}.
Arguments F_each {line}.
Arguments F_write {line}.
Arguments F_stopping {line}.
Arguments F_notify {line}.
Arguments F_end {line}.
Arguments mkService {line}.
Arguments s_continue {line}.
Arguments s_stopping {line}.
Arguments s_waits {line}.
Arguments s_ready {line}.
Arguments s_list {line}.
Arguments s_loggers {line}.
Arguments s_flushers {line}.
Arguments s_stops {line}.
Arguments started {line}.
Arguments new_logger {line}.
Arguments Log {line}.
Arguments New_logger {line}.
Arguments Expire {line}.
Arguments Handle {line}.
Arguments Flush {line}.
Arguments Call_stop {line}.
Arguments Stop {line}.
Arguments Spurious {line}.
Arguments step {line}.
Arguments exec {line}.

(** ** The worker threads: src/asio_service.cxx:599-622

    Each thread runs handlers until one of them throws; then the thread ends. *)
Inductive handler := Returns | Throws.
(** [w] threads left, handlers taken in the order in which they become ready; how many are run *)
Fixpoint work (w : nat) (hs : list handler) : nat * nat :=
  match w, hs with
  | O, _ => (O, O)
  | _, [] => (w, O)
  | S w', h :: hs =>
      let '(w'', n) := work (match h with Returns => S w' | Throws => w' end) hs in (w'', S n)
  end.
