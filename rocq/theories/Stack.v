(** * Stack: a server on the file log store

    Raft.v lets the server work on an indexed log; here the same server works
    on the three files of FsLogStore.v.  Every write of the server's log is the
    operation of the file store that the code calls; a start opens the folder,
    and the log the server starts with is the one the store then answers with.

    Simplifications: between the operations the bytes written so far are in
    the files (a crash comes between two operations; FsLogCrash.v and
    FsLogTorn.v have the crashes inside one); reads may happen at any time,
    their answers go to the server through the log of Raft.v (which is what
    C98 is about). *)

From Verif Require Import Base Codec CodecSpec Msg FsLogStore FsLogSpec FsLogCrash Raft NodeSpec.
Local Open Scope N_scope.

Inductive fsys := FUp (n : node) (s : store) | FDown (d : disk) (f : folder).

(** operations that only read (include/log_store.hxx:33-89) *)
Definition reads (op : lop) : bool :=
  match op with
  | LNextSlot | LStartIndex | LLast | LEntryAt _ | LTermAt _ | LLogEntries _ _ | LPack _ _ => true
  | _ => false
  end.

(** The operations of the log store behind the actions of the server:
    log_store_->append (src/raft_server.cxx:453, 1093;
    src/raft_server_req_handlers.cxx:174, 256, 550, 651), write_at (155),
    apply_pack (530), compact (364, src/raft_server.cxx:631); reads
    anywhere. *)
Definition log_op (a : act) (op : lop) : Prop :=
  match a with
  | AAppend e => op = LAppend e
  | AWriteAt i e => op = LWriteAt i e
  | AApplyPack i es => exists base, op = LApplyPack i base es
  | ACompact k => op = LCompact k
  | _ => False
  end.
Definition log_act (a : act) : bool :=
  match a with AAppend _ | AWriteAt _ _ | AApplyPack _ _ | ACompact _ => true | _ => false end.

Inductive does : list act -> list lop -> Prop :=
| D_nil : does [] []
| D_other : forall a l ops, log_act a = false -> does l ops -> does (a :: l) ops
| D_write : forall a l op ops, log_op a op -> does l ops -> does (a :: l) (op :: ops)
| D_read : forall l op ops, reads op = true -> does l ops -> does l (op :: ops).

(** the disk of a server that finds the log [l] in its log store
    (src/raft_server.cxx:49-145: the log store is the one of state_mgr) *)
Definition found (l : alog) (d : disk) : disk :=
  mkDisk (dk_state d) (dk_config d) l (dk_commit d) (dk_snp d) (dk_snp_data d).

(** The lives of NodeSpec.v with the files: [h] what happened to the server,
    [ops] what happened to the store. *)
Inductive flife (id : Z) (pm : params) : fsys -> list obs -> list lop -> fsys -> Prop :=
| F_nil : forall x, flife id pm x [] [] x
| F_event : forall n s e r n' l h ops ops' x,
    run_event e n = (r, n', l) -> goes_on r = true -> does l ops ->
    flife id pm (FUp n' (snd (run_lops ops s))) h ops' x ->
    flife id pm (FUp n s) (mkObs e l (answer_of r) :: h) (ops ++ ops') x
| F_stop : forall n s e r n' l h ops ops' x,
    run_event e n = (r, n', l) -> goes_on r = false -> does l ops ->
    flife id pm (FDown (n_disk n') (close (snd (run_lops ops s)))) h ops' x ->
    flife id pm (FUp n s) (mkObs e l None :: h) (ops ++ ops') x
| F_crash : forall n s e r n' p q h ops ops' x,
    run_event e n = (r, n', p ++ q) -> does p ops ->
    flife id pm (FDown (fold_left disk_apply p (n_disk n)) (close (snd (run_lops ops s)))) h ops' x ->
    flife id pm (FUp n s) (mkObs e p None :: h) (ops ++ ops') x
| F_start : forall d f z s l h ops x,
    open_store f z = (Ok tt, s) -> answers_as s l ->
    flife id pm (FUp (start_node id pm (found l d)) s) h ops x ->
    flife id pm (FDown d f) h (LReopen z :: ops) x.

(** The server and its store agree: every question the server can ask is
    answered from its log. *)
Definition answers_all (s : store) (l : alog) : Prop :=
  answers_as s l /\ last_entry s = a_last l /\
  forall i e, is_ulong i -> a_get l i = Some e -> fst (term_at i s) = Ok (ev_term e).
