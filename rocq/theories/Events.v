(** * Events: what the event listener of a server is told

    include/events.hxx:24-38: the application may give the server a raft_event_listener, which
    is called when the server becomes leader (src/raft_server.cxx:458-461) and when it becomes
    follower (src/raft_server.cxx:490-493).  In Raft.v the two calls are the actions
    [ABecomeLeader] and [ABecomeFollower]. *)

From Verif Require Import Base Raft NodeSpec.
Local Open Scope N_scope.

(** what an application that listens takes the server for - [true]: the leader - given what it
    took it for before.  [None] if it is told that a leader becomes leader. *)
Fixpoint hears (b : bool) (l : list act) : option bool :=
  match l with
  | [] => Some b
  | ABecomeLeader _ :: l => if b then None else hears true l
  | ABecomeFollower :: l => hears false l
  | _ :: l => hears b l
  end.
(** what the server is *)
Definition leads (n : node) : bool := match n_role n with Leader => true | _ => false end.
