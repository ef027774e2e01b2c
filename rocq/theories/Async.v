(** * Async: async_result, its three calls run by concurrent threads

    include/async.hxx.  Each thread makes one call.  A step is what a thread does
    under the mutex, or one access outside of it; steps of different threads
    interleave arbitrarily.  Simplifications: the accesses are sequentially
    consistent (has_result_ is a volatile bool read outside the mutex, which
    C++11 calls a data race; nothing is claimed about weaker memory); a handler
    is a number and does not throw; a call of a handler is one step. *)

From Coq Require Import List Arith.
Import ListNotations.

(** include/async.hxx:109-115: result_, err_, has_result_, handler_ *)
Record shared (T E : Type) := mkShared { sh_result : T; sh_err : option E; sh_has : bool; sh_handler : option nat }.
Arguments mkShared {T E}.
Arguments sh_result {T E}.
Arguments sh_err {T E}.
Arguments sh_has {T E}.
Arguments sh_handler {T E}.

(** include/async.hxx:33-41: the three constructors; [d] is the value of a default constructed
    result *)
Definition new_empty {T E} (d : T) : shared T E := mkShared d None false None.
Definition new_result {T E} (v : T) : shared T E := mkShared v None true None.
Definition new_handler {T E} (d : T) (h : nat) : shared T E := mkShared d None true (Some h).

(** where a thread is.
    when_ready (include/async.hxx:51-63): before the mutex; before the test; before the call; done.
    set_result (include/async.hxx:66-86): before the mutex; before the call of the copy; before
    notify_all; done.
    get (include/async.hxx:88-109): before the mutex; in cv_.wait; woken up; returned (or threw). *)
Inductive wpc := W_store | W_test | W_call | W_done.
Inductive spc := S_store | S_call (h : option nat) | S_notify | S_done.
Inductive gpc (T E : Type) := G_lock | G_wait | G_woken | G_done (v : T) (e : option E).
Arguments G_lock {T E}.
Arguments G_wait {T E}.
Arguments G_woken {T E}.
Arguments G_done {T E}.
Inductive thread (T E : Type) :=
| WhenReady (h : nat) (pc : wpc)
| SetResult (v : T) (e : option E) (pc : spc)
| Get (pc : gpc T E).
Arguments WhenReady {T E}.
Arguments SetResult {T E}.
Arguments Get {T E}.

(** a call of a handler: by which thread, which handler, with what *)
Record call (T E : Type) := mkCall { c_by : nat; c_handler : nat; c_value : T; c_err : option E }.
Arguments mkCall {T E}.
Arguments c_by {T E}.
Arguments c_handler {T E}.
Arguments c_value {T E}.
Arguments c_err {T E}.
Record state (T E : Type) := mkState { st_sh : shared T E; st_thread : nat -> thread T E; st_calls : list (call T E) }.
Arguments mkState {T E}.
Arguments st_sh {T E}.
Arguments st_thread {T E}.
Arguments st_calls {T E}.

Definition set_thread {T E} (ths : nat -> thread T E) (i : nat) (t : thread T E) : nat -> thread T E :=
  fun j => if Nat.eqb j i then t else ths j.
(** cv_.notify_all *)
Definition wake {T E} (t : thread T E) : thread T E := match t with Get G_wait => Get G_woken | t => t end.

(** a thread makes a step, or cv_.wait returns without a notification (the C++ standard allows it) *)
Inductive label := Run (i : nat) | Spurious (i : nat).

Definition step {T E} (s : state T E) (l : label) : option (state T E) :=
  let sh := st_sh s in
  match l with
  | Spurious i =>
      match st_thread s i with
      | Get G_wait => Some (mkState sh (set_thread (st_thread s) i (Get G_woken)) (st_calls s))
      | _ => None
      end
  | Run i =>
      let goto sh' t cs := Some (mkState sh' (set_thread (st_thread s) i t) cs) in
      match st_thread s i with
      (* include/async.hxx:54-57 *)
      | WhenReady h W_store => goto (mkShared (sh_result sh) (sh_err sh) (sh_has sh) (Some h)) (WhenReady h W_test) (st_calls s)
      (* include/async.hxx:59 *)
      | WhenReady h W_test => goto sh (WhenReady h (if sh_has sh then W_call else W_done)) (st_calls s)
      (* include/async.hxx:61; calling an empty std::function would throw *)
      | WhenReady h W_call =>
          match sh_handler sh with
          | Some k => goto sh (WhenReady h W_done) (st_calls s ++ [mkCall i k (sh_result sh) (sh_err sh)])
          | None => None
          end
      | WhenReady _ W_done => None
      (* include/async.hxx:70-78 *)
      | SetResult v e S_store => goto (mkShared v e true (sh_handler sh)) (SetResult v e (S_call (sh_handler sh))) (st_calls s)
      (* include/async.hxx:80-83 *)
      | SetResult v e (S_call (Some k)) => goto sh (SetResult v e S_notify) (st_calls s ++ [mkCall i k (sh_result sh) (sh_err sh)])
      | SetResult v e (S_call None) => goto sh (SetResult v e S_notify) (st_calls s)
      (* include/async.hxx:85 *)
      | SetResult v e S_notify => Some (mkState sh (fun j => wake (set_thread (st_thread s) i (SetResult v e S_done) j)) (st_calls s))
      | SetResult _ _ S_done => None
      (* include/async.hxx:90-101: cv_.wait releases the mutex and waits in one step *)
      | Get G_lock => goto sh (if sh_has sh then Get (G_done (sh_result sh) (sh_err sh)) else Get G_wait) (st_calls s)
      | Get G_wait => None
      (* include/async.hxx:102-108: with the mutex again; nothing tests has_result_ *)
      | Get G_woken => goto sh (Get (G_done (sh_result sh) (sh_err sh))) (st_calls s)
      | Get (G_done _ _) => None
      end
  end.

Inductive path {T E} (ok : state T E -> label -> Prop) (s0 : state T E) : state T E -> Prop :=
| P_nil : path ok s0 s0
| P_step : forall s l s', path ok s0 s -> ok s l -> step s l = Some s' -> path ok s0 s'.
(** every interleaving *)
Definition any_step {T E} (s : state T E) (l : label) : Prop := True.
(** without spurious wake-ups *)
Definition no_spurious {T E} (s : state T E) (l : label) : Prop := match l with Run _ => True | Spurious _ => False end.

Fixpoint exec {T E} (s : state T E) (ls : list label) : option (state T E) :=
  match ls with
  | [] => Some s
  | l :: ls => match step s l with Some s' => exec s' ls | None => None end
  end.
