(** * NodeSpec: the life of one server, and words to talk about it

    Nothing here refers to how handlers work: a life is a sequence of events;
    each event's actions (saving state, writing the log, sending, calling the
    state machine) and its answer are recorded.  The process may crash between
    any two actions; the disk then holds what those actions left. *)

From Verif Require Import Base Buffer Codec CodecSpec Msg FsLogStore FsLogSpec Raft.
Local Open Scope N_scope.

Inductive sys := Up (n : node) | Down (d : disk).

Record obs := mkObs { o_event : event; o_acts : list act; o_answer : option answer }.

(** after an exception the server keeps running (the worker thread or the RPC
    session catches it); system_exit ends the process; undefined behaviour is
    counted as the end of the process, nothing is claimed beyond it *)
Definition goes_on {A} (r : rout A) : bool := match r with ROk _ | RThrow _ => true | _ => false end.
Definition answer_of (r : rout answer) : option answer := match r with ROk a => Some a | _ => None end.

Inductive life (id : Z) (pm : params) : sys -> list obs -> sys -> Prop :=
| L_nil : forall s, life id pm s [] s
| L_event : forall n e r n' l h s,
    run_event e n = (r, n', l) -> goes_on r = true ->
    life id pm (Up n') h s -> life id pm (Up n) (mkObs e l (answer_of r) :: h) s
| L_stop : forall n e r n' l h s,
    run_event e n = (r, n', l) -> goes_on r = false ->
    life id pm (Down (n_disk n')) h s -> life id pm (Up n) (mkObs e l None :: h) s
| L_crash : forall n e r n' p q h s,
    run_event e n = (r, n', p ++ q) ->
    life id pm (Down (fold_left disk_apply p (n_disk n))) h s -> life id pm (Up n) (mkObs e p None :: h) s
| L_start : forall d h s, life id pm (Up (start_node id pm d)) h s -> life id pm (Down d) h s.

(** the persistent state of a server that has never run, or has *)
Definition disk_okay (d : disk) : Prop := 1 <= al_start (dk_log d).

(** term and vote on disk *)
Definition saved (d : disk) : N * Z := match dk_state d with Some x => x | None => (0, (-1)%Z) end.
Definition sys_disk (s : sys) : disk := match s with Up n => n_disk n | Down d => d end.

(** everything saved through state_mgr::save_state, in order *)
Fixpoint saves (l : list act) : list (N * Z) :=
  match l with
  | [] => []
  | ASaveState t v :: l => (t, v) :: saves l
  | _ :: l => saves l
  end.
Definition acts_of (h : list obs) : list act := concat (map o_acts h).

(** requests of some type that arrived *)
Definition got (ty : byte) (o : obs) : Prop := exists now q, o_event o = ERequest now q /\ rq_type q = ty.
Definition without (ty : byte) (h : list obs) : Prop := forall o, In o h -> ~ got ty o.

(** votes a server gave away: an accepted vote request, or its own candidacy *)
Inductive vote_in (h : list obs) (t : N) (c : Z) : Prop :=
| V_granted : forall now q l r, In (mkObs (ERequest now q) l (Some (Response r))) h ->
    rq_type q = vote_request -> rs_accepted r = true -> rq_term q = t -> rq_src q = c -> vote_in h t c
| V_candidate : forall uid ext q, In (ASend uid ext q) (acts_of h) ->
    rq_type q = vote_request -> rq_term q = t -> rq_src q = c -> vote_in h t c.

(** -1 stands for "no vote" in the saved state, so it is not a server id *)
Definition ids_okay (id : Z) (h : list obs) : Prop :=
  id <> (-1)%Z /\
  forall now q l a, In (mkObs (ERequest now q) l a) h -> rq_type q = vote_request -> rq_src q <> (-1)%Z.

(** the only requests that are retried later (src/raft_server_resp_handlers.cxx:388-466) *)
Definition retries_okay (h : list obs) : Prop :=
  forall uid q l a, In (mkObs (ERetry uid q) l a) h ->
    rq_type q = sync_log_request \/ rq_type q = join_cluster_request \/ rq_type q = leave_cluster_request.

(** a server handling events without stopping *)
Inductive runs : node -> list obs -> node -> Prop :=
| R_nil : forall n, runs n [] n
| R_event : forall n e r n' l h n2,
    run_event e n = (r, n', l) -> goes_on r = true -> runs n' h n2 -> runs n (mkObs e l (answer_of r) :: h) n2.

(** entries given to the state machine by commit(), in order *)
Fixpoint commits (l : list act) : list (N * entry_val) :=
  match l with
  | [] => []
  | ACommit i e :: l => (i, e) :: commits l
  | _ :: l => commits l
  end.
