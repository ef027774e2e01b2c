(** * P_Forward: forwarded API calls: where they go (C73) and what their result is (C57) *)

From Verif Require Import Base Buffer Codec CodecSpec Msg FsLogStore FsLogSpec Alog Raft RaftQuiet RaftWalk NodeSpec NodeFacts NodeExamples WalkAll P_Api.
From Verif Require Async Client P_Async P_Client.
Local Open Scope N_scope.

(** ** C73 *)
(** the endpoint the configuration of [n] gives for server [i] *)
Definition configured (n : node) (i : Z) (ep : list byte) : Prop := exists s, In s (cc_servers (n_config n)) /\ sc_id s = i /\ sc_endpoint s = ep.

(** server 2 leads, an API call is forwarded to it; then server 2 is removed and added again with
    another endpoint, and leads again *)
Definition moved_cfg (i : N) (l : list srv_config) : cluster_config := mkCfg i (i - 1) l.
Definition moved_cmds : list cmd :=
  [CStart; CEvent (ERequest 0 (ex_ae 1 2 0 0 0 [])); CEvent (EAppend 0 [[x61]]);
   CEvent (ERequest 0 (ex_ae 2 3 0 0 2 [conf_entry 2 (moved_cfg 1 [ex_srv 1; ex_srv 3]); conf_entry 2 (moved_cfg 2 [ex_srv 1; ex_srv 3; mkSrv 2 [x62]])]));
   CEvent ECommit; CEvent ECommit; CEvent (ERequest 0 (ex_ae 3 2 2 2 2 []))].
Definition moved : list obs * sys := run_cmds 1 ex_prm (Down ex_disk) moved_cmds.
(** The claim is false: the client is made once per server and kept. *)
Theorem C73_endpoint_refuted : exists id pm d h n, life id pm (Down d) h (Up n) /\ n_leader n = 2%Z /\ configured n 2 [x62] /\ ~ configured n 2 [x61] /\
  exists now logs q r n' l, run_event (EAppend now logs) n = (r, n', l) /\ l = [AForward 2 [x61] q].
Proof.
  set (n := match snd moved with Up n => n | Down d => start_node 1 ex_prm d end).
  exists 1%Z, ex_prm, ex_disk, (fst moved), n.
  split; [replace (Up n) with (snd moved) by (vm_compute; reflexivity); apply run_cmds_life|].
  split; [vm_compute; reflexivity|]. split; [exists (mkSrv 2 [x62]); vm_compute; auto|].
  split; [intros (s & H & E1 & E2); vm_compute in H; destruct H as [<-|[<-|[<-|[]]]]; discriminate|].
  exists 0, [[x61]], (api_req client_request [mkEV 0 app_log [x61]]). eexists _, _, _. split; [apply (pair3 _ _ _ _ _ eq_refl)|]. vm_compute. reflexivity.
Qed.

(** Only the API calls use clients. *)
Definition no_fw (a : act) : Prop := match a with AForward _ _ _ => False | _ => True end.
Definition R73 : rel := both (keeps n_clients) (acts no_fw).
#[export] Instance R73_pre : preorder R73.
Proof. unfold R73. exact _. Qed.
Ltac t73 := unfold R73, both; split; [kp | unfold acts; repeat constructor].
Lemma quiet_walk : forall e n, ht R73 yes (run_event e) n \/ exists now q, api_call e = Some (now, q) /\ forall m, ht R73 yes (process_req now q) m.
Proof.
  set (R := R73). assert (P : preorder R) by exact _.
  walk_base R ltac:(unfold R; t73); walk_down R ltac:(unfold R; t73); walk_reconf R ltac:(unfold R; t73); walk_lead R ltac:(unfold R; t73); walk_cand R ltac:(unfold R; t73); walk_prevote R ltac:(unfold R; t73);
  walk_election R ltac:(unfold R; t73); walk_hb R ltac:(unfold R; t73); walk_reqs R ltac:(unfold R; t73); walk_join R ltac:(unfold R; t73); walk_leave R ltac:(unfold R; t73); walk_process R ltac:(unfold R; t73);
  walk_resps R ltac:(unfold R; t73); walk_prevote_resp R ltac:(unfold R; t73); walk_ext_resp R ltac:(unfold R; t73); walk_rest R ltac:(unfold R; t73); walk_rpc R ltac:(unfold R; t73).
  intros e n. destruct (api_call e) as [[now q]|] eqn:E; [right; exists now, q; split; [reflexivity | intros m; apply W_pro]|]. left.
  destruct e; cbn [run_event]; unfold retry; try discriminate E; try (wall ltac:(unfold R; t73)); try apply W_rpc.
  destruct logs; [cbn [append_entries]; wall ltac:(unfold R; t73) | discriminate E].
Qed.
Lemma clients_step : forall e n r n' l, run_event e n = (r, n', l) ->
  (forall i ep, In (i, ep) (n_clients n') -> In (i, ep) (n_clients n) \/ configured n i ep) /\
  (forall i ep q, In (AForward i ep q) l -> i = n_leader n /\ (In (i, ep) (n_clients n) \/ configured n i ep)).
Proof.
  intros e n r n' l E. destruct (quiet_walk e n) as [W|(now & q & A & W)].
  { destruct (W _ _ _ E) as [[K1 K2] _]. unfold keeps, acts in *. rewrite K1. split; [auto|]. intros i ep q H. rewrite Forall_forall in K2. contradiction (K2 _ H). }
  destruct (Z.eq_dec (n_leader n) (-1)) as [L1|L1]; [rewrite (C57_no_leader _ _ _ _ A L1) in E; inversion E; subst; split; [auto | intros ? ? ? []]|].
  destruct (Z.eq_dec (n_leader n) (n_id n)) as [L2|L2].
  - rewrite (api_run _ _ _ _ A) in E. unfold send_msg_to_leader in E. rewrite bind_assoc, bind_get in E.
    replace (n_leader n =? -1)%Z with false in E by lia. replace (n_leader n =? n_id n)%Z with true in E by lia. rewrite bind_assoc in E. unfold bind, ret in E.
    destruct (process_req now q n) as [[x n1] l1] eqn:Ep. destruct (W n _ _ _ Ep) as [[K1 K2] _]. unfold keeps, acts in *.
    assert (X : n' = n1 /\ l = l1) by (destruct x; inversion E; subst; rewrite ?app_nil_r; auto). destruct X as [-> ->].
    rewrite K1. split; [auto|]. intros i ep q0 H. rewrite Forall_forall in K2. contradiction (K2 _ H).
  - destruct (C57_forward _ _ _ _ A L1 L2) as [(ep & H & X)|(_ & [(s & H1 & H2 & X)|(_ & X)])]; rewrite X in E; inversion E; subst.
    + split; [auto|]. intros i ep0 q0 [Z|[]]. inversion Z; subst. auto.
    + assert (C : configured n (n_leader n) (sc_endpoint s)) by (exists s; auto). split.
      * intros i ep [Z|Z]; [inversion Z; subst; auto | auto].
      * intros i ep0 q0 [Z|[]]. inversion Z; subst. auto.
    + split; [auto | intros ? ? ? []].
Qed.
(** What holds, between two starts of the process: a forwarded call goes to the leader, at an endpoint
    that a configuration of the server has given for it at that moment or earlier in this run. *)
Theorem C73_endpoint_partial : forall id pm d h n e r n' l i ep q, runs (start_node id pm d) h n ->
  run_event e n = (r, n', l) -> In (AForward i ep q) l ->
  i = n_leader n /\
  exists h1 h2 n1, h = h1 ++ h2 /\ runs (start_node id pm d) h1 n1 /\ runs n1 h2 n /\ configured n1 i ep.
Proof.
  intros id pm d h n e r n' l i ep q Ru E H. destruct (clients_step _ _ _ _ _ E) as [_ K]. destruct (K _ _ _ H) as [Hi C]. split; [exact Hi|]. clear K H Hi E.
  assert (G : forall n0 h n, runs n0 h n -> In (i, ep) (n_clients n) \/ configured n i ep ->
    (In (i, ep) (n_clients n0) \/ exists h1 h2 n1, h = h1 ++ h2 /\ runs n0 h1 n1 /\ runs n1 h2 n /\ configured n1 i ep)).
  { clear. intros n0 h n Ru. induction Ru as [n|n e r n' l h n2 E G Ru IH]; intros C.
    - destruct C as [C|C]; [left; exact C|]. right. exists [], [], n. split; [reflexivity|]. split; [constructor|]. split; [constructor | exact C].
    - destruct (IH C) as [C'|(h1 & h2 & n1 & -> & R1 & R2 & C')].
      + destruct (clients_step _ _ _ _ _ E) as [K _]. destruct (K _ _ C') as [K1|K1]; [left; exact K1|]. right.
        exists [], (mkObs e l (answer_of r) :: h), n. split; [reflexivity|]. split; [constructor|]. split; [econstructor; eassumption | exact K1].
      + right. exists (mkObs e l (answer_of r) :: h1), h2, n1. split; [reflexivity|]. split; [econstructor; eassumption|]. split; assumption. }
  destruct (G _ _ _ Ru C) as [X|X]; [|exact X]. exfalso.
  unfold start_node in X. destruct (dk_state d) as [[t v]|]; exact X.
Qed.
(** the call before the move *)
Example C73_example : exists h n, runs (start_node 1 ex_prm ex_disk) h n /\ configured n 2 [x61] /\
  exists r n' q, run_event (EAppend 0 [[x61]]) n = (r, n', [AForward 2 [x61] q]).
Proof.
  set (e := ERequest 0 (ex_ae 1 2 0 0 0 [])). set (x := run_event e (start_node 1 ex_prm ex_disk)).
  exists [mkObs e (snd x) (answer_of (fst (fst x)))], (snd (fst x)). split.
  - eapply R_event; [apply (pair3 _ _ _ _ _ eq_refl) | vm_compute; reflexivity | constructor].
  - split; [exists (ex_srv 2); vm_compute; auto|]. eexists _, _, (api_req client_request [mkEV 0 app_log [x61]]).
    rewrite (pair3 _ _ _ (run_event (EAppend 0 [[x61]]) (snd (fst x))) _ eq_refl). apply f_equal2; [reflexivity | vm_compute; reflexivity].
Qed.

(** ** C57: the result of a forwarded call *)
(** what the handler given to the client (src/raft_server.cxx:1033-1048) sets the asynchronous result
    to, for what the client calls it with *)
Definition told (o : Client.outcome resp_msg) : bool * option unit :=
  let '(v, err) := forward_result (match o with Client.Answer _ r => Some r | Client.Failed => None end) in
  (v, if err then Some tt else None).
(** For calls forwarded one at a time, whatever failed before: the application's handler, and get
    (unless woken up spuriously), are given the leader's verdict on this very request and no error, or
    false and an error if the RPC failed.  [d] is the initial value of the result, [h] the application's
    handler, [s] any moment of any interleaving of the application's calls with the completion. *)
Theorem C57_result_partial : forall (c : Client.client resp_msg) k o d h s, Client.path Client.serial Client.new_client c -> In (k, o) (Client.c_calls c) ->
  (Async.path Async.any_step (P_Async.begin d h (fst (told o)) (snd (told o))) s ->
   forall a, In a (Async.st_calls s) -> Async.c_handler a = h /\
     match o with
     | Client.Answer j r => j = k /\ Async.c_value a = rs_accepted r /\ Async.c_err a = None
     | Client.Failed => Async.c_value a = false /\ Async.c_err a = Some tt
     end) /\
  (Async.path Async.no_spurious (P_Async.begin d h (fst (told o)) (snd (told o))) s ->
   forall i v e, P_Async.get_gave s i v e ->
     match o with
     | Client.Answer j r => j = k /\ v = rs_accepted r /\ e = None
     | Client.Failed => v = false /\ e = Some tt
     end).
Proof.
  intros c k o d h s P H. split.
  - intros A a Ha. destruct (P_Async.C23_handler_partial _ _ _ _ _ _ _ A) as (K & _). destruct (K a Ha) as (K1 & K2 & K3 & _). split; [exact K1|].
    destruct o as [j r|]; [|split; assumption]. split; [eapply P_Client.C71_own_answer_partial; eassumption|]. split; assumption.
  - intros A i v e G. destruct (P_Async.C23_get_partial _ _ _ _ _ _ _ A) as (K & _). destruct (K i v e G) as (K1 & K2).
    destruct o as [j r|]; [|split; assumption]. split; [eapply P_Client.C71_own_answer_partial; eassumption|]. split; assumption.
Qed.
(** The claim is false for calls forwarded at the same time: the leader accepts the request of call 1
    and refuses that of call 2; call 1 is told false and call 2 true. *)
Theorem C57_swapped_refuted : exists (c : Client.client resp_msg) a b, Client.path Client.any Client.new_client c /\
  rs_accepted a = true /\ rs_accepted b = false /\
  In (1%nat, Client.Answer 2 b) (Client.c_calls c) /\ In (2%nat, Client.Answer 1 a) (Client.c_calls c) /\
  told (Client.Answer 2 b) = (false, None) /\ told (Client.Answer 1 a) = (true, None).
Proof.
  destruct (P_Client.C71_swapped_refuted _ (mkResp 1 append_entries_response 2 0 5 true) (mkResp 1 append_entries_response 2 0 0 false)) as (c & P & E).
  exists c. eexists _, _. split; [exact P|]. rewrite E. split; [|split; [|split; [right; right; left; reflexivity | split; [right; left; reflexivity|]]]]; try reflexivity. split; reflexivity.
Qed.
Example C57_result_example : exists (c : Client.client resp_msg) r, Client.path Client.serial Client.new_client c /\ rs_accepted r = true /\
  In (0%nat, Client.Answer 0 r) (Client.c_calls c) /\
  exists s : Async.state bool unit, Async.path Async.any_step (P_Async.begin false 7%nat true None) s /\ Async.st_calls s = [Async.mkCall 1 7 true None].
Proof.
  set (r := mkResp 1 append_entries_response 2 0 5 true).
  exists (P_Client.run_all [Client.Send; Client.Done 0 true; Client.Done 0 true; Client.GoesOut 0; Client.Done 0 true; Client.Serve 0 r; Client.Done 0 true]), r.
  split; [apply P_Client.run_all_serial; vm_compute; reflexivity|]. split; [reflexivity|]. split; [left; vm_compute; reflexivity|].
  eexists. split; [apply (P_Async.exec_path bool unit [Async.Run 0; Async.Run 0; Async.Run 1; Async.Run 1] (P_Async.begin false 7%nat true None)); [reflexivity | constructor] | reflexivity].
Qed.

Print Assumptions C73_endpoint_refuted.
Print Assumptions C73_endpoint_partial.
Print Assumptions C57_result_partial.
Print Assumptions C57_swapped_refuted.
