(** * NodeExamples: running concrete lives *)

From Verif Require Import Base Buffer Codec CodecSpec Msg FsLogStore FsLogSpec Raft NodeSpec.
Local Open Scope N_scope.

(** a command: handle an event, crash after [k] actions of an event, start *)
Inductive cmd := CEvent (e : event) | CCrash (e : event) (k : nat) | CStart.

Definition run_cmd (id : Z) (pm : params) (s : sys) (c : cmd) : list obs * sys :=
  match s, c with
  | Up n, CEvent e =>
      let '(r, n', l) := run_event e n in
      if goes_on r then ([mkObs e l (answer_of r)], Up n') else ([mkObs e l None], Down (n_disk n'))
  | Up n, CCrash e k =>
      let '(_, _, l) := run_event e n in
      ([mkObs e (firstn k l) None], Down (fold_left disk_apply (firstn k l) (n_disk n)))
  | Down d, CStart => ([], Up (start_node id pm d))
  | s, _ => ([], s)
  end.
Fixpoint run_cmds (id : Z) (pm : params) (s : sys) (cs : list cmd) : list obs * sys :=
  match cs with
  | [] => ([], s)
  | c :: cs => let '(h, s1) := run_cmd id pm s c in let '(h2, s2) := run_cmds id pm s1 cs in (h ++ h2, s2)
  end.

Lemma run_cmds_life : forall id pm cs s, life id pm s (fst (run_cmds id pm s cs)) (snd (run_cmds id pm s cs)).
Proof.
  intros id pm. induction cs as [|c cs IH]; intros s; cbn [run_cmds].
  - constructor.
  - destruct (run_cmd id pm s c) as [h s1] eqn:E. specialize (IH s1).
    destruct (run_cmds id pm s1 cs) as [h2 s2]. cbn [fst snd] in *.
    destruct s as [n|d], c as [e|e k|]; cbn [run_cmd] in E; try (inversion E; subst; exact IH).
    + destruct (run_event e n) as [[r n'] l] eqn:Er. destruct (goes_on r) eqn:Eg; inversion E; subst; cbn [app].
      * eapply L_event; eassumption.
      * eapply L_stop; eassumption.
    + destruct (run_event e n) as [[r n'] l] eqn:Er. inversion E; subst. cbn [app].
      eapply L_crash; [|exact IH]. rewrite firstn_skipn. exact Er.
    + inversion E; subst. cbn [app]. apply L_start. exact IH.
Qed.

(** A cluster of three servers with the default parameters (include/raft_params.hxx:29-43). *)
Definition ex_prm : params := mkParams 300 150 75 25 1000 10 0 0 100 10000 false true.
Definition ex_srv (id : Z) : srv_config := mkSrv id [x61].
Definition ex_cfg : cluster_config := mkCfg 0 0 [ex_srv 1; ex_srv 2; ex_srv 3].
(** the disk of a fresh server *)
Definition ex_disk : disk := mkDisk None ex_cfg a_empty 0 None [].
Definition ex_ent (t : N) (b : byte) : entry_val := mkEV t app_log [b].
Definition ex_vote (t : N) (src : Z) (lt li : N) : req := mkReq t vote_request src 1 lt li 0 [].
Definition ex_ae (t : N) (src : Z) (lt li ci : N) (es : list entry_val) : req := mkReq t append_entries_request src 1 lt li ci es.
Definition ex_join (t : N) (src : Z) : req := mkReq t join_cluster_request src 1 0 0 0 [conf_entry t ex_cfg].

(** for examples: the state reached, and an event's result taken apart *)
Definition up_node (s : sys) : node := match s with Up n => n | Down d => start_node 1 ex_prm d end.
Lemma pair3 : forall A B C (x : A * B * C) a, fst (fst x) = a -> x = (a, snd (fst x), snd x).
Proof. intros A B C [[a b] c] a0 <-. reflexivity. Qed.

(** checkers for the conditions on histories *)
Definition withoutb (ty : byte) (h : list obs) : bool :=
  forallb (fun o => match o_event o with ERequest _ q => negb (beq (rq_type q) ty) | _ => true end) h.
Lemma withoutb_ok : forall ty h, withoutb ty h = true -> without ty h.
Proof.
  intros ty h H o Hin (now & q & E & Ht). unfold withoutb in H. rewrite forallb_forall in H. specialize (H o Hin).
  rewrite E in H. cbv iota in H. rewrite Ht in H. unfold beq in H. rewrite Byte.byte_dec_lb in H; [discriminate | reflexivity].
Qed.
