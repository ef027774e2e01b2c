(** * Full: a cluster whose servers keep their logs in files and send messages as bytes

    StackCluster.v and Wire.v together: a step is a step of Cluster.v, with the calls of the
    server's log store run on its files, and with requests and responses that are what the
    receiver makes of the bytes of a connection that may break anywhere. *)

From Verif Require Import Base Codec CodecSpec Msg FsLogStore FsLogSpec FsLogCrash Raft NodeSpec Stack Cluster StackCluster Wire.
Local Open Scope N_scope.

Section Full.
  Variable servers : list srv_config.
  Variable prm : Z -> params.

  (** handle_* of src/raft_server*.cxx as in Raft.v, the store of src/fs_log_store.cxx:171-850 as in
      StackCluster.v, the connections of src/asio_service.cxx:134-307, 387-466 as in Wire.v.  The rest of a
      server's disk (term, vote, configuration, snapshots) is that of Raft.v: the caller's
      state_mgr and state_machine keep it. *)
  Inductive gstep (w : fworld) : fworld -> Prop :=
  | G_event : forall i n s e r n' l ops, In i (ids servers) -> w_sys (fw_world w) i = Up n -> fw_files w i = Open s ->
      wpossible servers (fw_world w) i e -> run_event e n = (r, n', l) -> goes_on r = true -> does l ops ->
      gstep w (fnext w i (Up n') [mkObs e l (answer_of r)] (Open (snd (run_lops ops s))) ops)
  | G_stop : forall i n s e r n' l ops, In i (ids servers) -> w_sys (fw_world w) i = Up n -> fw_files w i = Open s ->
      wpossible servers (fw_world w) i e -> run_event e n = (r, n', l) -> goes_on r = false -> does l ops ->
      gstep w (fnext w i (Down (n_disk n')) [mkObs e l None] (Closed (close (snd (run_lops ops s)))) ops)
  | G_crash : forall i n s e r n' p q ops, In i (ids servers) -> w_sys (fw_world w) i = Up n -> fw_files w i = Open s ->
      wpossible servers (fw_world w) i e -> run_event e n = (r, n', p ++ q) -> does p ops ->
      gstep w (fnext w i (Down (fold_left disk_apply p (n_disk n))) [mkObs e p None] (Closed (close (snd (run_lops ops s)))) ops)
  | G_start : forall i d f z s l, In i (ids servers) -> w_sys (fw_world w) i = Down d -> fw_files w i = Closed f ->
      open_store f z = (Ok tt, s) -> answers_as s l ->
      gstep w (fnext w i (Up (start_node i (prm i) (found l d))) [] (Open s) [LReopen z]).
  Inductive greach (w0 : fworld) : fworld -> Prop :=
  | GReach_0 : greach w0 w0
  | GReach_S : forall w w', greach w0 w -> gstep w w' -> greach w0 w'.
End Full.
