(** * Bounds: how much has happened in a cluster

    Cluster.v counts indexes and terms in unbounded numbers, the code in 64 bits
    (include/basic_types.hxx, `ulong`).  To say that the difference does not show, a run is
    measured by what has happened in it: the number of events, and the number of entries that
    clients and the application have handed in. *)

From Verif Require Import Base Buffer Codec CodecSpec Msg FsLogStore FsLogSpec Raft NodeSpec Cluster.
Local Open Scope N_scope.

(** the entries a client or the application hands in with an event *)
Definition handed (e : event) : N :=
  match e with
  | ERequest _ q => if beq (rq_type q) client_request then lenN (rq_entries q) else 0
  | EAppend _ logs => lenN logs
  | EReplicate _ _ => 1
  | _ => 0
  end.

Fixpoint total {A} (f : A -> N) (l : list A) : N := match l with [] => 0 | x :: l => f x + total f l end.

Section Bounds.
  Variable servers : list srv_config.

  (** everything that has happened in the cluster *)
  Definition happened (w : world) : list event := flat_map (fun i => map o_event (w_hist w i)) (ids servers).
  (** the number of events, and that of events and entries handed in *)
  Definition events (w : world) : N := lenN (happened w).
  Definition work (w : world) : N := events w + total handed (happened w).
End Bounds.

(** ** Numbers that are at most T (terms) and at most X (indexes) *)

Definition entry_within (T : N) (e : entry_val) : Prop := ev_term e <= T.
(** what a server keeps on its disk: the term, the log and its entries, the last index applied *)
Record disk_within (T X : N) (d : disk) : Prop := mkDW {
  dw_term : fst (saved d) <= T;
  dw_ents : Forall (entry_within T) (al_ents (dk_log d));
  dw_next : 1 <= al_start (dk_log d) /\ a_next (dk_log d) <= X + 1;
  dw_commit : dk_commit d <= X;
  dw_snp : forall s, dk_snp d = Some s -> sn_last_log_term s <= T /\ sn_last_log_idx s <= X }.
(** what a running server knows of another one: the next index to send, the last one matched *)
Definition peer_within (X : N) (p : peer) : Prop := p_next p <= X + 1 /\ p_match p <= X.
Record node_within (T X : N) (n : node) : Prop := mkNW {
  nw_disk : disk_within T X (n_disk n);
  nw_term : n_term n <= T;
  nw_quick : n_quick n <= X;
  nw_smc : n_smc n <= X;
  nw_peers : Forall (peer_within X) (n_peers n) }.
Definition sys_within (T X : N) (s : sys) : Prop :=
  match s with Up n => node_within T X n | Down d => disk_within T X d end.

(** a request: its terms; the index it starts at, also past the entries it carries; its commit index *)
Record req_within (T X : N) (q : req) : Prop := mkQW {
  qw_term : rq_term q <= T;
  qw_last_term : rq_last_term q <= T;
  qw_ents : Forall (entry_within T) (rq_entries q);
  qw_last : rq_last_idx q <= X;
  qw_end : rq_type q <> install_snapshot_request -> rq_last_idx q + lenN (rq_entries q) <= X;
  qw_commit : rq_commit q <= X }.
(** a response: its term and its index, which is an offset into the snapshot in a response
    to a piece of a snapshot *)
Definition resp_within (T X : N) (r : resp_msg) : Prop :=
  rs_term r <= T /\ (rs_type r <> install_snapshot_response -> rs_next_idx r <= X + 1).
