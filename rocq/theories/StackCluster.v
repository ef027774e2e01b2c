(** * StackCluster: the network of Cluster.v, every server on its own files

    A step is a step of Cluster.v with the calls of the server's log store run
    on its files (Stack.v); a server that starts has the log its store then
    answers with. *)

From Verif Require Import Base Codec CodecSpec Msg FsLogStore FsLogSpec FsLogCrash Raft NodeSpec Stack Cluster.
Local Open Scope N_scope.

Inductive files := Open (s : store) | Closed (f : folder).
(** the servers and their histories; their files; the calls of each store *)
Record fworld := mkFW { fw_world : world; fw_files : Z -> files; fw_ops : Z -> list lop }.

Section FCluster.
  Variable servers : list srv_config.
  Variable prm : Z -> params.

  Definition fnext (w : fworld) (i : Z) (x : sys) (o : list obs) (f : files) (ops : list lop) : fworld :=
    mkFW (next_world (fw_world w) i x o) (put (fw_files w) i f) (put (fw_ops w) i (fw_ops w i ++ ops)).

  Inductive fstep (w : fworld) : fworld -> Prop :=
  | FW_event : forall i n s e r n' l ops, In i (ids servers) -> w_sys (fw_world w) i = Up n -> fw_files w i = Open s ->
      possible servers (fw_world w) i e -> run_event e n = (r, n', l) -> goes_on r = true -> does l ops ->
      fstep w (fnext w i (Up n') [mkObs e l (answer_of r)] (Open (snd (run_lops ops s))) ops)
  | FW_stop : forall i n s e r n' l ops, In i (ids servers) -> w_sys (fw_world w) i = Up n -> fw_files w i = Open s ->
      possible servers (fw_world w) i e -> run_event e n = (r, n', l) -> goes_on r = false -> does l ops ->
      fstep w (fnext w i (Down (n_disk n')) [mkObs e l None] (Closed (close (snd (run_lops ops s)))) ops)
  | FW_crash : forall i n s e r n' p q ops, In i (ids servers) -> w_sys (fw_world w) i = Up n -> fw_files w i = Open s ->
      possible servers (fw_world w) i e -> run_event e n = (r, n', p ++ q) -> does p ops ->
      fstep w (fnext w i (Down (fold_left disk_apply p (n_disk n))) [mkObs e p None] (Closed (close (snd (run_lops ops s)))) ops)
  | FW_start : forall i d f z s l, In i (ids servers) -> w_sys (fw_world w) i = Down d -> fw_files w i = Closed f ->
      open_store f z = (Ok tt, s) -> answers_as s l ->
      fstep w (fnext w i (Up (start_node i (prm i) (found l d))) [] (Open s) [LReopen z]).
  Inductive freach (w0 : fworld) : fworld -> Prop :=
  | FReach_0 : freach w0 w0
  | FReach_S : forall w w', freach w0 w -> fstep w w' -> freach w0 w'.

  (** just set up: every folder is empty *)
  Definition finitial (w : fworld) : Prop :=
    initial servers (fw_world w) /\ forall i, fw_files w i = Closed empty_folder /\ fw_ops w i = [].

  (** the conditions of C14 on the calls of every store; the first call opens
      it, so the first two arguments of [ops_ok] do not matter *)
  Definition stores_okay (w : fworld) : Prop := forall i, In i (ids servers) -> ops_ok 1 1 a_empty (fw_ops w i).
End FCluster.
