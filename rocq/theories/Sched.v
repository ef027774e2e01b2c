(** * Sched: a delayed task and the timer of the asio service

    include/delayed_task.hxx:30-63, include/delayed_task_scheduler.hxx:34-38,
    src/asio_service.cxx:562-574 and 719-739.  One task.  Its owner calls schedule
    and cancel one after the other (the server does so under its lock); worker
    threads run the completion handlers of the waits.  Steps interleave
    arbitrarily.  Simplifications: asio::steady_timer is modelled by what its
    documentation says (setting the expiry or cancelling aborts the waits that have
    not completed and leaves those whose handler is queued); the clock counts
    milliseconds; accesses are sequentially consistent; the body of the action is
    one step. *)

From Coq Require Import List Arith.
Import ListNotations.

(** a call of async_wait: the timer runs; expired, so its handler is queued without an error;
    aborted, so its handler is queued with operation_aborted; the handler has read the cancelled
    flag and found it false; the action was started; the handler returned without starting it *)
Inductive wait_state := Pending | Due | Aborted | Checked | Started | Dropped.
Record wait := mkWait { w_due : nat; w_state : wait_state }.
(** where the owner is: outside; in schedule after [reset]; in schedule after [expires_after]; in
    cancel after [cancel_impl] *)
Inductive owner := Outside | Sched_reset (ms : nat) | Sched_set (due : nat) | Cancel_timer.
(** [t_ctx]: impl_ctx_ is set; [t_starts]: when the action was started, by which wait *)
Record task := mkTask { t_now : nat; t_cancelled : bool; t_ctx : bool; t_waits : list wait; t_owner : owner; t_starts : list (nat * nat) }.
(** delayed_task.hxx:30 *)
Definition new_task (now : nat) : task := mkTask now false false [] Outside [].

Inductive label :=
| Schedule (ms : nat) | SetExpiry | AsyncWait    (* the three parts of schedule *)
| CancelTimer | SetCancelled                     (* the two parts of cancel *)
| Tick                                           (* a millisecond passes *)
| Expire (i : nat) | Take (i : nat) | Start (i : nat).  (* the timer's i-th wait *)

Definition abort (w : wait) : wait := match w_state w with Pending => mkWait (w_due w) Aborted | _ => w end.
Fixpoint set_wait (ws : list wait) (i : nat) (st : wait_state) : list wait :=
  match ws, i with
  | [], _ => []
  | w :: ws, O => mkWait (w_due w) st :: ws
  | w :: ws, S i => w :: set_wait ws i st
  end.

Definition step (t : task) (l : label) : option task :=
  let '(mkTask now c ctx ws o st) := t in
  match l with
  (* asio_service.cxx:721-726 *)
  | Schedule ms => match o with Outside => Some (mkTask now false true ws (Sched_reset ms) st) | _ => None end
  (* asio_service.cxx:728-729 *)
  | SetExpiry => match o with Sched_reset ms => Some (mkTask now c ctx (map abort ws) (Sched_set (now + ms)) st) | _ => None end
  (* asio_service.cxx:730-731 *)
  | AsyncWait => match o with Sched_set due => Some (mkTask now c ctx (ws ++ [mkWait due Pending]) Outside st) | _ => None end
  (* delayed_task_scheduler.hxx:36, asio_service.cxx:733-739 *)
  | CancelTimer => match o with Outside => Some (mkTask now c ctx (if ctx then map abort ws else ws) Cancel_timer st) | _ => None end
  (* delayed_task_scheduler.hxx:37, delayed_task.hxx:55-58 *)
  | SetCancelled => match o with Cancel_timer => Some (mkTask now true ctx ws Outside st) | _ => None end
  | Tick => Some (mkTask (S now) c ctx ws o st)
  (* the timer expires *)
  | Expire i =>
      match nth_error ws i with
      | Some (mkWait due Pending) => if due <=? now then Some (mkTask now c ctx (set_wait ws i Due) o st) else None
      | _ => None
      end
  (* asio_service.cxx:568-574, delayed_task.hxx:47-49 *)
  | Take i =>
      match nth_error ws i with
      | Some (mkWait _ Due) => Some (mkTask now c ctx (set_wait ws i (if c then Dropped else Checked)) o st)
      | Some (mkWait _ Aborted) => Some (mkTask now c ctx (set_wait ws i Dropped) o st)
      | _ => None
      end
  (* delayed_task.hxx:51: exec() *)
  | Start i =>
      match nth_error ws i with
      | Some (mkWait _ Checked) => Some (mkTask now c ctx (set_wait ws i Started) o (st ++ [(now, i)]))
      | _ => None
      end
  end.
Fixpoint exec (t : task) (ls : list label) : option task :=
  match ls with
  | [] => Some t
  | l :: ls => match step t l with Some t' => exec t' ls | None => None end
  end.
