(** * P_SnapMatch: what snapshots do to agreement between logs (C36, C38)

    With snapshots neither property holds, for a reason of its own: a server that installs a
    snapshot keeps the entries behind it although they continue another history
    (handle_snapshot_sync_req, src/raft_server_req_handlers.cxx:349-408, only compacts the log),
    and a server with a completely compacted log votes for everybody who has an entry
    (handle_vote_req takes the term of the missing last entry as 0). *)

From Verif Require Import Base Buffer Codec CodecSpec Msg FsLogStore FsLogSpec Alog Raft RaftTrace NodeSpec NodeLife NodeExamples Cluster ClusterElect ClusterExamples P_Serve P_Safe.
Local Open Scope N_scope.

(** server 3 leads term 1 and copies four entries to server 4 only *)
Definition two_pasts_1 : list kcmd :=
  [KStart 1; KStart 2; KStart 3; KStart 4; KStart 5; KDo 3 EElection; KRpc 3 4 0; KRpc 3 5 0; KDo 3 (EReplicate 0 [x61]); KDo 3 (EReplicate 0 [x62]); KDo 3 (EReplicate 0 [x63]);
   KRpc 3 4 0; KRpc 3 4 0; KRpc 3 4 0]%Z.
(** server 1 leads term 2, commits three entries with servers 2 and 5, makes a snapshot and compacts its log *)
Definition two_pasts_2 : list kcmd :=
  [KDo 1 EElection; KDo 1 EElection; KRpc 1 2 0; KRpc 1 5 0; KDo 1 (EReplicate 0 [x64]); KDo 1 (EReplicate 0 [x65]);
   KRpc 1 2 0; KRpc 1 5 0; KRpc 1 2 0; KRpc 1 5 0; KRpc 1 2 0; KRpc 1 5 0; KDo 1 ECommit; KDo 1 ECommit; KDo 1 ECommit; KSnap 1 [x01]]%Z.
(** it is started again, leads term 3 and sends the snapshot to server 3, which keeps its old entry 4 *)
Definition two_pasts_3 : list kcmd :=
  [KCrash 1 (EHeartbeat 2) 0; KStart 1; KDo 1 EElection; KRpc 1 2 0; KRpc 1 5 0; KRpc 1 3 0; KRpc 1 3 0; KRpc 1 3 0; KRpc 1 3 0]%Z.
(** server 3 leads term 4 with the votes of 1 and 4 and sends its entry 4 to server 5; server 4, which
    agrees with server 3 on entry 4, learns that everything up to 3 is committed *)
Definition two_pasts_4 : list kcmd := [KDo 3 EElection; KRpc 3 1 0; KRpc 3 4 0; KRpc 3 4 0; KRpc 3 5 0; KRpc 3 5 0; KDo 4 ECommit; KDo 4 ECommit]%Z.
Definition two_pasts : world := fold_left (run_k five (fun _ => snp_prm 2 0)) (two_pasts_1 ++ two_pasts_2 ++ two_pasts_3 ++ two_pasts_4) five_world.
Lemma two_pasts_reach : reach five (fun _ => snp_prm 2 0) five_world two_pasts.
Proof. apply run_ks_reach. constructor. Qed.
Opaque two_pasts.

(** C36 with snapshots: servers 4 and 5 hold the same entry 4 of term 1, and different entries 2 *)
Theorem C36_snapshots_refuted : exists servers prm w0 w i j k e j2 a b,
  cluster_okay servers /\ initial servers w0 /\ reach servers prm w0 w /\ In i (ids servers) /\ In j (ids servers) /\
  a_get (log_of w i) k = Some e /\ a_get (log_of w j) k = Some e /\ j2 < k /\
  a_get (log_of w i) j2 = Some a /\ a_get (log_of w j) j2 = Some b /\ a <> b.
Proof.
  exists five, (fun _ => snp_prm 2 0), five_world, two_pasts, 4%Z, 5%Z, 4, (mkEV 1 app_log [x63]), 2, (mkEV 1 app_log [x61]), (mkEV 2 app_log [x64]).
  split; [exact five_okay|]. split; [exact five_initial|]. split; [exact two_pasts_reach|].
  split; [apply (memb_in five (fun _ => ex_prm)); reflexivity|]. split; [apply (memb_in five (fun _ => ex_prm)); reflexivity|].
  split; [vm_compute; reflexivity|]. split; [vm_compute; reflexivity|]. split; [reflexivity|]. split; [vm_compute; reflexivity|]. split; [vm_compute; reflexivity | discriminate].
Qed.
(** C38 with snapshots: servers 1 and 4 apply different entries at index 2 although every commit
    index was moved by the rules: server 1 counted entries of its own term, and server 4 took over
    an index that the message covered *)
Lemma applied_in : forall servers w i k e, memb servers i = true -> In (k, e) (commits (w_acts w i)) -> applied servers w i k e.
Proof.
  intros servers w i k e Hi H. split; [apply (memb_in servers (fun _ => ex_prm)), Hi|]. induction (w_acts w i) as [|a l IH]; [destruct H|].
  destruct a; try (right; apply IH; exact H). destruct H as [H|H]; [inversion H; left; reflexivity | right; apply IH, H].
Qed.
Theorem C38_snapshots_refuted : exists servers prm w0 w i j k e f,
  cluster_okay servers /\ initial servers w0 /\ reach servers prm w0 w /\ applied servers w i k e /\ applied servers w j k f /\ ev_data e <> ev_data f.
Proof.
  exists five, (fun _ => snp_prm 2 0), five_world, two_pasts, 1%Z, 4%Z, 2, (mkEV 2 app_log [x64]), (mkEV 1 app_log [x61]).
  split; [exact five_okay|]. split; [exact five_initial|]. split; [exact two_pasts_reach|].
  split; [apply applied_in; vm_compute; auto|]. split; [apply applied_in; vm_compute; auto | discriminate].
Qed.

Print Assumptions C36_snapshots_refuted.
Print Assumptions C38_snapshots_refuted.
