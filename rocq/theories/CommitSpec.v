(** * CommitSpec: the rules for moving the commit index that the safety of a cluster rests on

    The Raft paper asks two things of a server that moves its commit index.  A leader
    moves it to an entry of its own term that a majority of the servers hold (5.3,
    5.4.2).  A follower moves it no further than the last entry that the leader's
    message covers (figure 2: the smaller of leaderCommit and the index of the last new
    entry).  The server here checks neither (see P_Safe.v), so the rules are stated as a
    condition on runs of a cluster. *)

From Verif Require Import Base Codec CodecSpec Msg FsLogSpec Alog Raft NodeSpec Cluster.
Local Open Scope N_scope.

(** server [j] has told the leader of term [t] that its log has that leader's entries up to index [k] *)
Definition acked (w : world) (j : Z) (t k : N) : Prop :=
  0 < k /\ exists q r, answered w j q r /\ rq_type q = append_entries_request /\ rs_accepted r = true /\
    rq_term q = t /\ k <= rq_last_idx q + lenN (rq_entries q).

Section Rules.
  Variable servers : list srv_config.

  (** server [i], which has led its present term, or has acknowledgements from a majority
      (counting itself) for index [m], which is an entry of its term *)
  Definition majority_has (w : world) (i : Z) (n : node) (m : N) : Prop :=
    led servers w i (n_term n) /\ (exists x, a_get (n_log n) m = Some x /\ ev_term x = n_term n) /\
    exists B, NoDup B /\ incl B (ids servers) /\ (length (ids servers) < 2 * length B)%nat /\
      forall j, In j B -> j = i \/ acked w j (n_term n) m.
  (** a message from a leader lets the commit index go to [rq_commit q] *)
  Definition covered (n : node) (q : req) : Prop :=
    rq_commit q <= rq_last_idx q + lenN (rq_entries q) \/ a_next (n_log n) <= rq_last_idx q + lenN (rq_entries q) + 1.

  (** event [e] takes server [i] from [n] to [n'] *)
  Definition rules (w : world) (i : Z) (n : node) (e : event) (n' : node) : Prop :=
    match e with
    | ERpc _ _ _ _ (Some _) => n_quick n < n_quick n' -> majority_has w i n (n_quick n')
    | ERequest _ q => rq_type q = append_entries_request -> n_quick n < rq_commit q -> covered n q
    | _ => True
    end.

  (** the event that a step from [w] to [w'] consists of *)
  Definition happens (w w' : world) (i : Z) (n : node) (e : event) (n' : node) : Prop :=
    w_sys w i = Up n /\ (exists l a, w_hist w' i = w_hist w i ++ [mkObs e l a]) /\ (exists r l, run_event e n = (r, n', l)).

  (** runs whose every event obeys [R] *)
  Inductive obeys (R : world -> Z -> node -> event -> node -> Prop) (prm : Z -> params) (w0 : world) : world -> Prop :=
  | Careful_0 : obeys R prm w0 w0
  | Careful_S : forall w w', obeys R prm w0 w -> step servers prm w w' ->
      (forall i n e n', In i (ids servers) -> happens w w' i n e n' -> R w i n e n') -> obeys R prm w0 w'.
  (** runs in which commit indexes are moved by the rules *)
  Definition careful : (Z -> params) -> world -> world -> Prop := obeys rules.

  (** Rules a server can check itself.  It takes account of a response only while it is
      leader, it has led no other term (so no acknowledgement is left from one), and it
      moves its commit index only to an entry of its own term. *)
  Definition local_rules (w : world) (i : Z) (n : node) (e : event) (n' : node) : Prop :=
    match e with
    | ERpc _ _ _ _ (Some _) => n_quick n < n_quick n' ->
        n_role n = Leader /\ (forall t, led servers w i t -> t = n_term n) /\ exists x, a_get (n_log n) (n_quick n') = Some x /\ ev_term x = n_term n
    | ERequest _ q => rq_type q = append_entries_request -> n_quick n < rq_commit q -> covered n q
    | _ => True
    end.
  Definition cautious : (Z -> params) -> world -> world -> Prop := obeys local_rules.
End Rules.
