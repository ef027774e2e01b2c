(** The commit thread of a server, the two ways other threads wake it, and the
    destructor that waits for it: src/raft_server.cxx 147-170 (destructor),
    513-538 (commit), 882-949 (commit_in_bg), and the part of
    src/raft_server_req_handlers.cxx 344-398 (handle_snapshot_sync_req) that
    moves the applied position.

    Everywhere else in the model the commit thread's work on one entry is one
    atomic step. Here it is taken apart: the state below says where each of
    three threads stands - the commit thread, a thread that holds lock_ and
    handles messages, and a thread that destroys the server - and [step] says
    what one step of one of them does.

    Simplifications:
    - quick_commit_idx_ and sm_commit_index_ (include/raft_server.hxx 120-121)
      are plain integers shared by threads without a common lock. The C++
      standard calls that undefined; the model takes the kinder view that each
      read or write is atomic and in program order.
    - the log is its last index and, for each index, whether the entry there
      is a configuration ([conf]); what an entry holds plays no role here.
    - of what handlers do, only what touches the applied and committed
      positions and the end of the log is modelled. A handler can stop at any
      point between its steps, so every real handler's effect on the three
      numbers is a sequence of the steps below.
    - a join request (600-620), which sets both positions back to 0, is left
      out.
    - the condition variables: a notification wakes the thread that is
      asleep at that moment and is lost otherwise; spurious wake-ups, which
      the standard permits, are steps of their own ([CSpurious],
      [DSpurious]). *)
From Coq Require Import NArith List Bool Lia.
Import ListNotations.
Local Open Scope N_scope.

(** who can own a lock *)
Inductive owner := Committer | Handler | Destroyer.

(** Where the commit thread stands in commit_in_bg (882-949). *)
Inductive cpc :=
| Outer                (* 888: about to test whether there is work *)
| Idle                 (* 890-895: the test said no; the listener is told *)
| Held                 (* 896: owns commit_lock_, about to wait *)
| Asleep               (* 897: inside commit_cv_.wait *)
| Woken                (* 897: woken, needs commit_lock_ again *)
| Back                 (* 898: owns commit_lock_, about to look at stopping_ *)
| Leaving              (* 903: about to take stopping_lock_ *)
| Gone                 (* 907: has returned *)
| Inner                (* 911: about to test whether there is an entry to apply *)
| Bump                 (* 913: the test said yes *)
| Fetch                (* 914: about to read the entry at sm_commit_index_ *)
| Hand (e : N)         (* 917: has entry e, about to hand it to the state machine *)
| WantConf (e : N)     (* 921: has configuration e, needs lock_ *)
| InConf (e : N)       (* 922-938: owns lock_ *)
| After                (* 941: snapshot_and_compact *)
| WantSnap             (* 625: the state machine reports its snapshot at once; needs lock_ *)
| InSnap.              (* 626-634: owns lock_ *)

(** Where the thread that handles messages stands. *)
Inductive hpc :=
| Away                 (* holds no lock *)
| Inside               (* owns lock_ *)
| Notify               (* inside commit (513-538): quick_commit_idx_ is set *)
| SnapDone (i : N)     (* inside handle_snapshot_sync_req: the snapshot at i is applied (362) *)
| SnapS (i : N).       (* sm_commit_index_ is set (372) *)

(** Where the thread that destroys the server stands in ~raft_server. *)
Inductive dpc :=
| D0                   (* not begun *)
| D1                   (* 149: owns lock_ *)
| D2                   (* 150: stopping_ is set *)
| D3                   (* 151: owns commit_lock_ *)
| D4                   (* 152: has notified *)
| D5                   (* 153: owns stopping_lock_ *)
| D6                   (* 154: has released commit_lock_ *)
| DWait                (* 156: inside ready_to_stop_cv_.wait *)
| DWoken               (* 156: woken, needs stopping_lock_ again *)
| DReturned.           (* past 156: only timers are left to cancel *)

(** What the outside sees. *)
Inductive event :=
| EApply (i e : N)     (* state_machine_->commit (i, the entry at e) *)
| EConf (e : N)        (* the configuration entry at e is carried out *)
| ESnap (i : N).       (* state_machine_->apply_snapshot of a snapshot up to i *)

Record cst := {
  q : N;               (* quick_commit_idx_ *)
  s : N;               (* sm_commit_index_ *)
  top : N;             (* log_store_->next_slot() - 1 *)
  stopping : bool;     (* stopping_ *)
  pc : cpc; h : hpc; d : dpc;
  lk : option owner;   (* lock_ *)
  ck : option owner;   (* commit_lock_ *)
  sk : option owner;   (* stopping_lock_ *)
  evs : list event     (* oldest first *)
}.

Definition set_pc p x := {| q := q x; s := s x; top := top x; stopping := stopping x; pc := p; h := h x; d := d x; lk := lk x; ck := ck x; sk := sk x; evs := evs x |}.
Definition set_h p x := {| q := q x; s := s x; top := top x; stopping := stopping x; pc := pc x; h := p; d := d x; lk := lk x; ck := ck x; sk := sk x; evs := evs x |}.
Definition set_d p x := {| q := q x; s := s x; top := top x; stopping := stopping x; pc := pc x; h := h x; d := p; lk := lk x; ck := ck x; sk := sk x; evs := evs x |}.
Definition set_q v x := {| q := v; s := s x; top := top x; stopping := stopping x; pc := pc x; h := h x; d := d x; lk := lk x; ck := ck x; sk := sk x; evs := evs x |}.
Definition set_s v x := {| q := q x; s := v; top := top x; stopping := stopping x; pc := pc x; h := h x; d := d x; lk := lk x; ck := ck x; sk := sk x; evs := evs x |}.
Definition set_top v x := {| q := q x; s := s x; top := v; stopping := stopping x; pc := pc x; h := h x; d := d x; lk := lk x; ck := ck x; sk := sk x; evs := evs x |}.
Definition set_stop x := {| q := q x; s := s x; top := top x; stopping := true; pc := pc x; h := h x; d := d x; lk := lk x; ck := ck x; sk := sk x; evs := evs x |}.
Definition set_lk v x := {| q := q x; s := s x; top := top x; stopping := stopping x; pc := pc x; h := h x; d := d x; lk := v; ck := ck x; sk := sk x; evs := evs x |}.
Definition set_ck v x := {| q := q x; s := s x; top := top x; stopping := stopping x; pc := pc x; h := h x; d := d x; lk := lk x; ck := v; sk := sk x; evs := evs x |}.
Definition set_sk v x := {| q := q x; s := s x; top := top x; stopping := stopping x; pc := pc x; h := h x; d := d x; lk := lk x; ck := ck x; sk := v; evs := evs x |}.
Definition emit e x := {| q := q x; s := s x; top := top x; stopping := stopping x; pc := pc x; h := h x; d := d x; lk := lk x; ck := ck x; sk := sk x; evs := evs x ++ [e] |}.

(** commit_cv_.notify_one / notify_all: only the commit thread ever waits. *)
Definition wake (x : cst) : cst :=
  match pc x with Asleep => set_pc Woken x | _ => x end.

(** ready_to_stop_cv_.notify_all: only the destructor ever waits. *)
Definition wake_d (x : cst) : cst :=
  match d x with DWait => set_d DWoken x | _ => x end.

(** 888, 911: an entry is committed and in the log, and not applied *)
Definition work (x : cst) : bool := (s x <? q x) && (s x <? top x).

(** One step of the commit thread, 882-949. [conf i]: the entry at i is a
    configuration. None: it has to wait for a lock, or is asleep or gone. *)
Definition cstep (conf : N -> bool) (x : cst) : option cst :=
  match pc x with
  | Outer => Some (set_pc (if work x then Inner else Idle) x)
  | Idle => match ck x with
            | None => Some (set_pc Held (set_ck (Some Committer) x))
            | Some _ => None
            end
  | Held => Some (set_pc Asleep (set_ck None x))
  | Asleep => None
  | Woken => match ck x with
             | None => Some (set_pc Back (set_ck (Some Committer) x))
             | Some _ => None
             end
  | Back => Some (set_pc (if stopping x then Leaving else Outer) (set_ck None x))
  | Leaving => match sk x with
               | None => Some (set_pc Gone (wake_d x))
               | Some _ => None
               end
  | Gone => None
  | Inner => Some (set_pc (if work x then Bump else Outer) x)
  | Bump => Some (set_pc Fetch (set_s (s x + 1) x))
  | Fetch => Some (set_pc (if conf (s x) then WantConf (s x) else Hand (s x)) x)
  | Hand e => Some (set_pc After (emit (EApply (s x) e) x))
  | WantConf e => match lk x with
                  | None => Some (set_pc (InConf e) (set_lk (Some Committer) x))
                  | Some _ => None
                  end
  | InConf e => Some (set_pc After (set_lk None (emit (EConf e) x)))
  | After => Some (set_pc Inner x)
  | WantSnap => match lk x with
                | None => Some (set_pc InSnap (set_lk (Some Committer) x))
                | Some _ => None
                end
  | InSnap => Some (set_pc Inner (set_lk None x))
  end.

(** One step of the destructor, 147-170. *)
Definition dstep (x : cst) : option cst :=
  match d x with
  | D0 => match lk x with
          | None => Some (set_d D1 (set_lk (Some Destroyer) x))
          | Some _ => None
          end
  | D1 => Some (set_d D2 (set_stop x))
  | D2 => match ck x with
          | None => Some (set_d D3 (set_ck (Some Destroyer) x))
          | Some _ => None
          end
  | D3 => Some (set_d D4 (wake x))
  | D4 => match sk x with
          | None => Some (set_d D5 (set_sk (Some Destroyer) x))
          | Some _ => None
          end
  | D5 => Some (set_d D6 (set_ck None x))
  | D6 => Some (set_d DWait (set_sk None x))
  | DWait => None
  | DWoken => match sk x with
              | None => Some (set_d DReturned x)
              | Some _ => None
              end
  | DReturned => None
  end.

(** The steps of the three threads. *)
Inductive label :=
| C                    (* the commit thread goes on *)
| CSnap                (* ... and the state machine reports a snapshot at once (608-636) *)
| CSpurious            (* the commit thread wakes up without being notified *)
| HTake                (* a handler takes lock_ *)
| HAppend              (* a thread appends an entry (replicate_log, 1093, holds no lock then) *)
| HCommit (i t : N)    (* commit (i), the log ending at t by now *)
| HNotify              (* the end of commit: notify_one if there is work *)
| HSnap (i : N)        (* a snapshot up to i is applied *)
| HSnapS               (* sm_commit_index_ = i *)
| HSnapQ               (* quick_commit_idx_ = i *)
| HDrop                (* the handler releases lock_ *)
| D                    (* the destructor goes on *)
| DSpurious.           (* it wakes up without being notified *)

Definition step (conf : N -> bool) (l : label) (x : cst) : option cst :=
  match l with
  | C => cstep conf x
  | CSnap => match pc x with After => Some (set_pc WantSnap x) | _ => None end
  | CSpurious => match pc x with Asleep => Some (set_pc Woken x) | _ => None end
  | HTake => match h x, lk x with
             | Away, None => Some (set_h Inside (set_lk (Some Handler) x))
             | _, _ => None
             end
  | HAppend => Some (set_top (top x + 1) x)
  | HCommit i t => match h x with
                   | Inside => Some (set_h Notify (set_q (N.max (q x) i) (set_top t x)))
                   | _ => None
                   end
  | HNotify => match h x with
               | Notify => Some (set_h Inside (if work x then wake x else x))
               | _ => None
               end
  | HSnap i => match h x with
               | Inside => if s x <? i
                           then Some (set_h (SnapDone i) (emit (ESnap i) (set_top (N.max (top x) i) x)))
                           else None
               | _ => None
               end
  | HSnapS => match h x with
              | SnapDone i => Some (set_h (SnapS i) (set_s i x))
              | _ => None
              end
  | HSnapQ => match h x with
              | SnapS i => Some (set_h Inside (set_q i x))
              | _ => None
              end
  | HDrop => match h x with
             | Inside => Some (set_h Away (set_lk None x))
             | _ => None
             end
  | D => dstep x
  | DSpurious => match d x with DWait => Some (set_d DWoken x) | _ => None end
  end.

(** The state the constructor leaves (138-145): the commit thread has just
    been started; nobody holds a lock. *)
Definition started (a b t : N) : cst :=
  {| q := a; s := b; top := t; stopping := false; pc := Outer; h := Away; d := D0;
     lk := None; ck := None; sk := None; evs := [] |}.

(** A history: the labels in order. *)
Fixpoint go (conf : N -> bool) (ls : list label) (x : cst) : option cst :=
  match ls with
  | [] => Some x
  | l :: r => match step conf l x with Some y => go conf r y | None => None end
  end.
