(** * Progress: a leader and the members that answer it (specification for C93) *)

From Verif Require Import Base Buffer Codec CodecSpec Msg FsLogStore FsLogSpec Alog Raft RaftQuiet NodeSpec ServerSpec NodeFacts AppendFacts NodeExamples P_Leader P_Commit Runs PeerInv ServeFacts P_Serve P_Elect Cluster ClusterElect ClusterExamples P_Ack.
Local Open Scope N_scope.

(** the requests among the actions that went out through the connection [uid] *)
Definition sent_to (uid : N) (l : list act) : list req :=
  concat (map (fun a => match a with ASend u _ q => if u =? uid then [q] else [] | _ => [] end) l).
Definition put (F : Z -> node) (id : Z) (f : node) : Z -> node := fun x => if (x =? id)%Z then f else F x.

(** Every member in [ids], one after the other, gets the one request to it among the actions
    [out], and its answer gets back to the leader [n].  [None] unless there is exactly one
    request for each, each is answered, and the leader comes through each answer.  Also the
    leader's actions. *)
Fixpoint wave (now : N) (out : list act) (ids : list Z) (n : node) (F : Z -> node) : option (node * (Z -> node) * list act) :=
  match ids with
  | [] => Some (n, F, [])
  | id :: ids' =>
      match find_peer id (n_peers n) with
      | None => None
      | Some p =>
          match sent_to (p_uid p) out with
          | [q] =>
              match run_event (ERequest now q) (F id) with
              | (ROk (Response r), f, _) =>
                  match run_event (ERpc now (p_uid p) false q (Some r)) n with
                  | (ROk Nothing, n1, l1) =>
                      match wave now out ids' n1 (put F id f) with
                      | Some (n2, F2, l2) => Some (n2, F2, l1 ++ l2)
                      | None => None
                      end
                  | _ => None
                  end
              | _ => None
              end
          | _ => None
          end
      end
  end.

(** A leader that has committed its whole log, with members [ids] that are, together with it, a
    majority, are sent nothing at the moment, and continue where its log ends. *)
Definition ready (ids : list Z) (n : node) : Prop :=
  n_role n = Leader /\ NoDup (map p_id (n_peers n)) /\ NoDup (map p_uid (n_peers n)) /\
  1 <= al_start (n_log n) /\ n_quick n = a_next (n_log n) - 1 /\ 1 <= pm_max_append (n_prm n) /\
  NoDup ids /\ incl ids (map p_id (n_peers n)) /\ (length (n_peers n) + 1 < 2 * (length ids + 1))%nat /\
  (forall p, In p (n_peers n) -> p_match p <= n_quick n) /\
  (forall p, In p (n_peers n) -> p_busy p = false -> has_entries n (next_of n p)) /\
  (forall p, In p (n_peers n) -> In (p_id p) ids -> p_busy p = false /\ p_pending p = false /\ p_next p = a_next (n_log n)).

(** A member that is in no later term and has the leader's last entry. *)
Definition follows (n f : node) : Prop :=
  n_term f <= n_term n /\ (n_role f = Leader -> n_term f < n_term n) /\ 1 <= al_start (n_log f) <= a_next (n_log n) /\
  (a_next (n_log n) = 1 \/
   exists e e', a_get (n_log n) (a_next (n_log n) - 1) = Some e /\ a_get (n_log f) (a_next (n_log n) - 1) = Some e' /\ ev_term e' = ev_term e).

(** [f] has an entry of the same term as [n] at every index from [i] on *)
Definition has_from (i : N) (n f : node) : Prop :=
  forall j e, i <= j -> a_get (n_log n) j = Some e -> exists e', a_get (n_log f) j = Some e' /\ ev_term e' = ev_term e.

(** One client request: the leader answers it, the members [ids1] get and answer what it sends
    them, and then the members [ids2] get and answer what it sends them in turn. *)
Definition round (now : N) (q : req) (ids1 ids2 : list Z) (n : node) (F : Z -> node) : option (resp_msg * node * (Z -> node)) :=
  match run_event (ERequest now q) n with
  | (ROk (Response x), n1, l1) =>
      match wave now l1 ids1 n1 F with
      | Some (n2, F2, l2) =>
          match wave now l2 ids2 n2 F2 with
          | Some (n3, F3, _) => Some (x, n3, F3)
          | None => None
          end
      | None => None
      end
  | _ => None
  end.
(** A request after the other. *)
Fixpoint rounds (rs : list (N * req * list Z * list Z)) (n : node) (F : Z -> node) : option (list resp_msg * node * (Z -> node)) :=
  match rs with
  | [] => Some ([], n, F)
  | (now, q, ids1, ids2) :: rs' =>
      match round now q ids1 ids2 n F with
      | Some (x, n1, F1) =>
          match rounds rs' n1 F1 with Some (xs, n2, F2) => Some (x :: xs, n2, F2) | None => None end
      | None => None
      end
  end.

(** [k] iterations of the committing thread, none of which ends it; with what it did *)
Fixpoint apply_times (k : nat) (n : node) : option (node * list act) :=
  match k with
  | O => Some (n, [])
  | S k' =>
      match run_event ECommit n with
      | (ROk Nothing, n1, l1) => match apply_times k' n1 with Some (n2, l2) => Some (n2, l1 ++ l2) | None => None end
      | _ => None
      end
  end.
(** the calls of the state machine's commit for the entries [es] from index [i] on *)
Fixpoint applies (i : N) (es : list entry_val) : list act :=
  match es with [] => [] | e :: es' => ACommit i e :: applies (i + 1) es' end.
