(** * Cluster: a cluster of servers with a network between them

    Servers run the model of Raft.v.  Every request a server has sent may be delivered
    to the server it is addressed to at any later time, any number of times or never;
    every response a server has given may be handed to the server that sent the request
    in the same way.  So messages may be lost, duplicated, delayed and reordered.  A
    server may stop between any two actions and be started again from its disk.
    Nothing here refers to how handlers work.

    Membership is fixed: nobody asks for a server to be added or removed.  Clients and
    the application do everything else. *)

From Verif Require Import Base Buffer BufferSpec Codec CodecSpec Msg FsLogStore FsLogSpec Raft NodeSpec.
Local Open Scope N_scope.

(** each server, and everything that has happened to it so far *)
Record world := mkWorld { w_sys : Z -> sys; w_hist : Z -> list obs }.

Definition w_acts (w : world) (i : Z) : list act := acts_of (w_hist w i).
Definition sent (w : world) (i : Z) (uid : N) (ext : bool) (q : req) : Prop := In (ASend uid ext q) (w_acts w i).
Definition answered (w : world) (j : Z) (q : req) (r : resp_msg) : Prop :=
  exists now l, In (mkObs (ERequest now q) l (Some (Response r))) (w_hist w j).

(** a request a client may send: log entries for the application *)
Definition client_req (q : req) : Prop :=
  rq_type q = client_request /\ forall e, In e (rq_entries q) -> ev_type e <> conf_log.

Section Cluster.
  (** the servers and their parameters *)
  Variable servers : list srv_config.
  Variable prm : Z -> params.
  Definition ids : list Z := map sc_id servers.

  (** what may happen at server [i] *)
  Definition possible (w : world) (i : Z) (e : event) : Prop :=
    match e with
    | ERequest _ q => (exists k uid ext, In k ids /\ sent w k uid ext q /\ rq_dst q = i) \/ client_req q
    | ERpc _ uid ext q None => sent w i uid ext q
    | ERpc _ uid ext q (Some r) => sent w i uid ext q /\ In (rq_dst q) ids /\ answered w (rq_dst q) q r
    | ERetry uid q => In (ARetryLater uid q) (w_acts w i)
    | ESnapshot s _ _ => In (ACreateSnapshot s) (w_acts w i)
    | EElection | EHeartbeat _ | ECommit | EReplicate _ _ | EAppend _ _ => True
    | EAddSrv _ _ | ERemoveSrv _ _ => False
    end.

  Definition put {A} (f : Z -> A) (i : Z) (v : A) : Z -> A := fun j => if (j =? i)%Z then v else f j.
  (** server [i] is now [s]; [o] has happened *)
  Definition next_world (w : world) (i : Z) (s : sys) (o : list obs) : world :=
    mkWorld (put (w_sys w) i s) (put (w_hist w) i (w_hist w i ++ o)).

  Inductive step (w : world) : world -> Prop :=
  | W_event : forall i n e r n' l, In i ids -> w_sys w i = Up n -> possible w i e ->
      run_event e n = (r, n', l) -> goes_on r = true ->
      step w (next_world w i (Up n') [mkObs e l (answer_of r)])
  | W_stop : forall i n e r n' l, In i ids -> w_sys w i = Up n -> possible w i e ->
      run_event e n = (r, n', l) -> goes_on r = false ->
      step w (next_world w i (Down (n_disk n')) [mkObs e l None])
  | W_crash : forall i n e r n' p q, In i ids -> w_sys w i = Up n -> possible w i e ->
      run_event e n = (r, n', p ++ q) ->
      step w (next_world w i (Down (fold_left disk_apply p (n_disk n))) [mkObs e p None])
  | W_start : forall i d, In i ids -> w_sys w i = Down d ->
      step w (next_world w i (Up (start_node i (prm i) d)) []).
  Inductive reach (w0 : world) : world -> Prop :=
  | Reach_0 : reach w0 w0
  | Reach_S : forall w w', reach w0 w -> step w w' -> reach w0 w'.

  (** a cluster that has just been set up: every server is down, its disk holds the
      configuration, which has no predecessor in any log, and nothing else *)
  Definition fresh_disk (d : disk) : Prop :=
    dk_state d = None /\ cc_servers (dk_config d) = servers /\ dk_log d = a_empty /\ dk_commit d = 0 /\ dk_snp d = None /\
    cc_prev_log_idx (dk_config d) = 0.
  Definition initial (w : world) : Prop :=
    forall i, w_hist w i = [] /\ (In i ids -> exists d, w_sys w i = Down d /\ fresh_disk d).

  (** ids are distinct, -1 is not an id, and a configuration entry can be written *)
  Definition cluster_okay : Prop :=
    NoDup ids /\ ~ In (-1)%Z ids /\ Forall srv_ok servers /\ lenN (cfg_bytes (mkCfg 0 0 servers)) < two31.
  (** no server takes snapshots (the default) *)
  Definition no_snapshots : Prop := forall i, pm_snp_distance (prm i) = 0.

  (** ** What is observed *)
  Definition led (w : world) (i : Z) (t : N) : Prop := In i ids /\ In (ABecomeLeader t) (w_acts w i).
  Definition log_of (w : world) (i : Z) : alog := dk_log (sys_disk (w_sys w i)).
  Definition applied (w : world) (i : Z) (k : N) (e : entry_val) : Prop := In i ids /\ In (ACommit k e) (w_acts w i).
End Cluster.

(** Two logs agree up to index [k] *)
Definition agree (k : N) (a b : alog) : Prop := forall j, j <= k -> a_get a j = a_get b j.
