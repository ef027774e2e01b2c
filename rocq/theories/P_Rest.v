(** * P_Rest: a cluster does not come to rest without a leader (C109)

    Whether something will happen by itself: a timer that runs, a call that is not finished. *)

From Verif Require Import Base Buffer Codec CodecSpec Msg FsLogStore FsLogSpec Alog Raft RaftQuiet RaftTrace RaftTrace3 NodeSpec NodeLife ServerSpec NodeFacts AppendFacts NodeExamples P_Leader
  Cluster ClusterElect ClusterLog ClusterRun ClusterExamples P_Cluster Runs P_Timer P_Accept.
Local Open Scope N_scope.

(** ** Specification *)

(** calls that a server has made and outcomes it has been told *)
Definition is_call (u : N) (x : bool) (q : req) (a : act) : bool :=
  match a with ASend u' x' q' => (u' =? u) && Bool.eqb x' x && (if req_dec q' q then true else false) | _ => false end.
Definition is_outcome (u : N) (x : bool) (q : req) (o : obs) : bool :=
  match o_event o with ERpc _ u' x' q' _ => (u' =? u) && Bool.eqb x' x && (if req_dec q' q then true else false) | _ => false end.
(** some call with this request has no outcome yet *)
Definition under_way (w : world) (i : Z) (u : N) (x : bool) (q : req) : Prop :=
  (length (filter (is_outcome u x q) (w_hist w i)) < length (filter (is_call u x q) (w_acts w i)))%nat.

Section Rest.
  Variable servers : list srv_config.
  Notation ids := (Cluster.ids servers).

  (** what can happen to server [i] without anybody restarting it: timers that run, calls that are
      under way, clients, the application's own calls *)
  Definition enabled (w : world) (i : Z) (n : node) (e : event) : Prop :=
    match e with
    | EElection => n_timer n = true
    | EHeartbeat j => exists p, find_peer j (n_peers n) = Some p /\ p_hb_sched p = true
    | ERequest _ q => (exists k u x, In k ids /\ under_way w k u x q /\ rq_dst q = i) \/ client_req q
    | ERpc _ u x q r => under_way w i u x q /\ match r with None => True | Some a => In (rq_dst q) ids /\ answered w (rq_dst q) q a end
    | ERetry u q => In (ARetryLater u q) (w_acts w i)
    | ESnapshot s _ _ => In (ACreateSnapshot s) (w_acts w i)
    | ECommit | EReplicate _ _ | EAppend _ _ => True
    | EAddSrv _ _ | ERemoveSrv _ _ => False
    end.
  Inductive goes_to (w : world) : world -> Prop :=
  | G_refl : goes_to w w
  | G_event : forall w1 i n e r n' l, goes_to w w1 -> In i ids -> w_sys w1 i = Up n -> enabled w1 i n e -> run_event e n = (r, n', l) ->
      goes_to w (next_world w1 i (if goes_on r then Up n' else Down (n_disk n')) [mkObs e l (answer_of r)]).

  (** every server runs, none leads, and nothing is going to change that *)
  Definition at_rest (w : world) : Prop := forall i, In i ids ->
    (exists n, w_sys w i = Up n /\ n_role n <> Leader /\ n_timer n = false /\ n_leader n = (-1)%Z /\ n_quick n <= n_smc n /\
       forall j p, find_peer j (n_peers n) = Some p -> p_hb_sched p = false) /\
    (forall u x q, ~ under_way w i u x q) /\ (forall u q, ~ In (ARetryLater u q) (w_acts w i)) /\ (forall s, ~ In (ACreateSnapshot s) (w_acts w i)).

  (** ** Rest is for ever *)
  Lemma rest_event : forall w i n e, at_rest w -> In i ids -> w_sys w i = Up n -> enabled w i n e -> exists a, run_event e n = (ROk a, n, []) /\ forall now u x q r, e <> ERpc now u x q r.
  Proof.
    intros w i n e A Hi Wi En. destruct (A i Hi) as ((m & Wm & R & T & L & Q & Hb) & U & Rt & Sn). assert (m = n) by congruence. subst m.
    destruct e as [|j|now q|now u x q r|u q| |s d ok|now data|now logs| |]; cbn [enabled] in En.
    - congruence.
    - destruct En as (p & F & S). rewrite (Hb j p F) in S. discriminate.
    - destruct En as [(k & u & x & Hk & Uk & _)|Hq]; [destruct (A k Hk) as (_ & Uk2 & _); destruct (Uk2 _ _ _ Uk)|].
      destruct (C42_others_refuse n now q (proj1 Hq) R) as (x & E & _). exists (Response x). split; [exact E | discriminate].
    - destruct (U _ _ _ (proj1 En)).
    - destruct (Rt _ _ En).
    - exists Nothing. split; [|discriminate]. cbn [run_event]. unfold commit_step. rewrite bind_assoc, bind_get. replace (n_smc n <? n_quick n) with false by lia. reflexivity.
    - destruct (Sn _ En).
    - exists (Bool false). split; [|discriminate]. cbn [run_event]. unfold replicate_log. rewrite bind_assoc, (bind_ok _ _ _ _ _ _ _ _ (not_leader_eq now n R)), after_nil. reflexivity.
    - exists (Async (Now false)). split; [|discriminate]. cbn [run_event]. unfold append_entries. destruct logs as [|y ys]; [reflexivity|].
      unfold send_msg_to_leader. rewrite bind_assoc, bind_get, L. reflexivity.
    - destruct En.
    - destruct En.
  Qed.
  Lemma rest_step : forall w i n e a, at_rest w -> In i ids -> w_sys w i = Up n -> (forall now u x q r, e <> ERpc now u x q r) ->
    let w' := next_world w i (Up n) [mkObs e [] a] in (forall j, w_sys w' j = w_sys w j) /\ at_rest w'.
  Proof.
    intros w i n e a A Hi Wi Ne w'.
    assert (S : forall j, w_sys w' j = w_sys w j).
    { intros j. unfold w', next_world. cbn [w_sys]. destruct (Z.eq_dec j i) as [->|D]; [rewrite put_same; symmetry; exact Wi | rewrite put_other by exact D; reflexivity]. }
    assert (X : forall j, w_acts w' j = w_acts w j).
    { intros j. unfold w'. rewrite acts_next. destruct (Z.eq_dec j i) as [->|D]; [rewrite put_same; apply app_nil_r | rewrite put_other by exact D; reflexivity]. }
    split; [exact S|]. intros j Hj. rewrite S, X. destruct (A j Hj) as (A1 & A2 & A3). split; [exact A1|]. split; [|exact A3].
    intros u x q U. apply (A2 u x q). unfold under_way in *. rewrite X in U. refine (Nat.le_lt_trans _ _ _ _ U). unfold w', next_world. cbn [w_hist].
    destruct (Z.eq_dec j i) as [->|D]; [rewrite put_same, filter_app, app_length; lia | rewrite put_other by exact D; lia].
  Qed.
End Rest.

(** A cluster at rest stays as it is, whatever clients and applications do, until a server is restarted. *)
Theorem C109_rest_is_for_ever : forall servers w w', at_rest servers w -> goes_to servers w w' -> (forall i, w_sys w' i = w_sys w i) /\ at_rest servers w'.
Proof.
  intros servers w w' A G. induction G as [|w1 i n e r n' l G [IH1 IH2] Hi Wi En E]; [auto|].
  destruct (rest_event servers w1 i n e IH2 Hi Wi En) as (a & E2 & Ne). rewrite E2 in E. inversion E; subst r n' l. cbn [goes_on].
  destruct (rest_step servers w1 i n e (answer_of (ROk a)) IH2 Hi Wi Ne) as (S & R). split; [intros j; rewrite S; apply IH1 | exact R].
Qed.

(** ** Without pre-votes a cluster never comes to rest: a server that runs and does not lead has its
    election timer running. *)
Lemma hist_fe : forall servers prm w0 w, cluster_okay servers -> no_snapshots prm -> initial servers w0 -> reach servers prm w0 w -> forall i o, In o (w_hist w i) -> fe (o_event o).
Proof.
  intros servers prm w0 w HC HS I0 R. induction R as [|w w' R IH St]; intros j o Ho; [rewrite (proj1 (I0 j)) in Ho; destruct Ho|].
  assert (W := reach_winv servers prm HC HS w0 w I0 R).
  destruct (step_cases servers prm HC w w' W St) as [(i & d & Hi & Hs & ->)|(i & n & e & l & n' & x & a & Hi & Hs & F & K & HT & Hx & ->)]; unfold next_world in Ho; cbn [w_hist] in Ho.
  - destruct (Z.eq_dec j i) as [->|D]; [rewrite put_same, app_nil_r in Ho | rewrite put_other in Ho by exact D]; eapply IH; exact Ho.
  - destruct (Z.eq_dec j i) as [->|D]; [rewrite put_same in Ho | rewrite put_other in Ho by exact D; eapply IH; exact Ho].
    apply in_app_or in Ho. destruct Ho as [Ho|[<-|[]]]; [eapply IH; exact Ho | exact F].
Qed.
Theorem C109_timer_runs_partial : forall servers prm w0 w i n, cluster_okay servers -> no_snapshots prm -> initial servers w0 -> reach servers prm w0 w ->
  In i (ids servers) -> pm_prevote (prm i) = false -> w_sys w i = Up n -> n_role n <> Leader -> enabled servers w i n EElection.
Proof.
  intros servers prm w0 w i n HC HS I0 R Hi Pv Wi Rl. assert (L := reach_life servers prm w0 w R (fun k => proj1 (I0 k)) i).
  destruct (I0 i) as (_ & I1). destruct (I1 Hi) as (d & Ed & D). rewrite Wi, Ed in L.
  assert (Dk : disk_okay d) by (destruct D as (_ & _ & D3 & _); unfold disk_okay; rewrite D3; cbn; lia).
  apply (C40_timer_pending_partial i (prm i) d (w_hist w i) n Dk Pv L); [|exact Rl].
  intros o Ho (now & q & E & T). assert (F := hist_fe servers prm w0 w HC HS I0 R i o Ho). rewrite E in F. cbn [fe] in F. unfold client_req in F. rewrite T in F. destruct F as [F|[F|[F|[F _]]]]; discriminate F.
Qed.
Theorem C109_never_at_rest_partial : forall servers prm w0 w, cluster_okay servers -> no_snapshots prm -> servers <> [] -> initial servers w0 -> reach servers prm w0 w ->
  (forall i, In i (ids servers) -> pm_prevote (prm i) = false) -> ~ at_rest servers w.
Proof.
  intros servers prm w0 w HC HS Ne I0 R Pv A. destruct servers as [|s ss]; [congruence|]. assert (Hi : In (sc_id s) (ids (s :: ss))) by (left; reflexivity).
  destruct (A _ Hi) as ((n & Wn & Rl & T & _) & _). assert (X := C109_timer_runs_partial _ prm w0 w _ n HC HS I0 R Hi (Pv _ Hi) Wn Rl). cbn in X. congruence.
Qed.

(** ** With pre-votes it can

    Three servers have just been started.  The network is down for a moment: the election timeout of
    each server fires, and its pre-vote requests fail.  Nothing starts the timers again. *)
Definition rest_cmds : list kcmd :=
  [KStart 1; KStart 2; KStart 3; KDo 1 EElection; KLost 1 2 0; KLost 1 3 0; KDo 2 EElection; KLost 2 1 0; KLost 2 3 0; KDo 3 EElection; KLost 3 1 0; KLost 3 2 0]%Z.
Definition rest_run : world := ex_run_with ex_pre_prm rest_cmds.
Definition quietb (w : world) (i : Z) : bool :=
  match w_sys w i with
  | Up n => negb (match n_role n with Leader => true | _ => false end) && negb (n_timer n) && (n_leader n =? -1)%Z && (n_quick n <=? n_smc n) && forallb (fun p => negb (p_hb_sched p)) (n_peers n)
  | Down _ => false
  end &&
  forallb (fun a => match a with
    | ASend u x q => Nat.leb (length (filter (is_call u x q) (w_acts w i))) (length (filter (is_outcome u x q) (w_hist w i)))
    | ARetryLater _ _ | ACreateSnapshot _ => false
    | _ => true
    end) (w_acts w i).
Lemma quietb_ok : forall servers w, forallb (quietb w) (ids servers) = true -> at_rest servers w.
Proof.
  intros servers w H i Hi. rewrite forallb_forall in H. specialize (H i Hi). unfold quietb in H. apply andb_prop in H. destruct H as [H1 H2]. rewrite forallb_forall in H2.
  split; [|split; [|split]].
  - destruct (w_sys w i) as [n|d]; [|discriminate]. exists n. split; [reflexivity|]. repeat (apply andb_prop in H1; destruct H1 as [H1 ?]). split; [intros R; rewrite R in H1; discriminate|].
    split; [destruct (n_timer n); [discriminate | reflexivity]|]. split; [lia|]. split; [lia|]. intros j p F.
    rewrite forallb_forall in H. assert (Ip : In p (n_peers n)) by (eapply find_some; exact F). specialize (H p Ip). destruct (p_hb_sched p); [discriminate | reflexivity].
  - intros u x q U. assert (X : exists a, In a (filter (is_call u x q) (w_acts w i))).
    { unfold under_way in U. destruct (filter (is_call u x q) (w_acts w i)) as [|a l]; [cbn in U; lia | exists a; left; reflexivity]. }
    destruct X as (a & X). apply filter_In in X. destruct X as [X1 X2]. destruct a; try discriminate X2. cbn in X2. apply andb_prop in X2. destruct X2 as [X2 X3]. apply andb_prop in X2. destruct X2 as [X2 X4].
    destruct (req_dec q0 q) as [->|]; [|discriminate]. apply Bool.eqb_prop in X4. assert (uid = u) by lia. subst. specialize (H2 _ X1). cbn in H2. apply Nat.leb_le in H2. unfold under_way in U. lia.
  - intros u q X. specialize (H2 _ X). discriminate.
  - intros s X. specialize (H2 _ X). discriminate.
Qed.
Theorem C109_rest_refuted : exists servers prm w0 w, cluster_okay servers /\ no_snapshots prm /\ length servers = 3%nat /\ initial servers w0 /\ reach servers prm w0 w /\ at_rest servers w.
Proof.
  exists ex_servers, (fun _ => ex_pre_prm), ex_world, rest_run. split; [exact ex_okay|]. split; [intros i; reflexivity|]. split; [reflexivity|]. split; [exact ex_initial|].
  split; [apply ex_reach_with|]. apply quietb_ok. vm_compute. reflexivity.
Qed.

(** So can every cluster of two or more servers that use pre-votes: the election timeout of each
    server fires once and the pre-vote requests that it sends all fail. *)
Definition pre_call (id : Z) (n : node) (j : Z) : N * req :=
  (match find_peer j (n_peers n) with Some p => p_uid p | None => 0 end, mkReq (n_term n) prevote_request id j 0 0 (n_quick n) []).
Definition call (c : N * req) : act := ASend (fst c) true (snd c).
Definition failed (c : N * req) : obs := mkObs (ERpc 0 (fst c) true (snd c) None) [] (Some Nothing).
Definition idle_node (n : node) : Prop :=
  n_role n <> Leader /\ n_timer n = false /\ n_leader n = (-1)%Z /\ n_quick n <= n_smc n /\ forall p, In p (n_peers n) -> p_hb_sched p = false.

Lemma ask_all : forall id n js, n_log n = a_empty -> (forall j, In j js -> find_peer j (n_peers n) <> None) ->
  for_each js (fun i => n <- get (fun n => n) ;; nx <- next_slot_ ;; lt <- term_for_log (nx - 1) ;;
    send_req (PPeer i) true (mkReq (n_term n) prevote_request id i lt (nx - 1) (n_quick n) [])) n = (ROk tt, n, map call (map (pre_call id n) js)).
Proof.
  intros id n js L. induction js as [|j js IH]; intros F; [reflexivity|]. cbn [for_each map].
  assert (E : (n <- get (fun n => n) ;; nx <- next_slot_ ;; lt <- term_for_log (nx - 1) ;;
    send_req (PPeer j) true (mkReq (n_term n) prevote_request id j lt (nx - 1) (n_quick n) [])) n = (ROk tt, n, [call (pre_call id n j)])).
  { rewrite bind_get. unfold next_slot_. rewrite bind_get, L. change (a_next a_empty - 1) with 0. unfold term_for_log. change (0 =? 0) with true. cbv iota. rewrite bind_ret.
    unfold send_req, the_peer, pre_call, call. cbn [fst snd]. assert (X := F j (or_introl eq_refl)). destruct (find_peer j (n_peers n)) as [p|] eqn:Fp; [|congruence].
    rewrite bind_assoc, bind_get. cbn [get_peer]. rewrite Fp, bind_ret. unfold emit. destruct n. reflexivity. }
  rewrite (bind_ok _ _ _ _ _ _ _ _ E), (IH (fun k Hk => F k (or_intror Hk))). reflexivity.
Qed.
Lemma find_id : forall j l, In j (map p_id l) -> find_peer j l <> None.
Proof.
  intros j l H E. apply in_map_iff in H. destruct H as (p & Hp & Ip). assert (X := find_none _ _ E p Ip). cbn in X. lia.
Qed.
Lemma elect_fires : forall n, n_log n = a_empty -> n_peers n <> [] -> n_role n = Follower -> n_steps n = 0%Z -> n_catching n = false -> pm_prevote (n_prm n) = true -> n_prevote n = None ->
  exists n1, run_event EElection n = (ROk Nothing, n1, map call (map (pre_call (n_id n) n1) (map p_id (n_peers n1)))) /\
    n_role n1 = Follower /\ n_timer n1 = false /\ n_leader n1 = n_leader n /\ n_quick n1 = n_quick n /\ n_smc n1 = n_smc n /\ n_peers n1 = n_peers n.
Proof.
  intros n L Pe R St Ca Pv Np. set (n1 := set_prevote (Some (1%Z, [n_id n])) (set_timer false n)). exists n1. split; [|destruct n; cbn in *; repeat split; assumption].
  cbn [run_event]. unfold handle_election_timeout. rewrite bind_assoc, bind_modify, bind_assoc, bind_get.
  replace (n_steps (set_timer false n)) with 0%Z by (destruct n; symmetry; exact St). change (0 <? 0)%Z with false. cbv iota.
  replace (n_catching (set_timer false n)) with false by (destruct n; symmetry; exact Ca). cbv iota.
  replace (n_role (set_timer false n)) with Follower by (destruct n; symmetry; exact R). cbv iota.
  replace (n_prm (set_timer false n)) with (n_prm n) by (destruct n; reflexivity). rewrite Pv.
  replace (n_prevote (set_timer false n)) with (@None (Z * list Z)) by (destruct n; symmetry; exact Np). cbv iota.
  assert (X : request_prevote (set_timer false n) = (ROk tt, n1, map call (map (pre_call (n_id n) n1) (map p_id (n_peers n1))))).
  { unfold request_prevote, peer_ids. rewrite bind_get. replace (n_peers (set_timer false n)) with (n_peers n) by (destruct n; reflexivity).
    assert (P1 : n_peers n1 = n_peers n) by (destruct n; reflexivity). rewrite P1.
    destruct (map p_id (n_peers n)) as [|j js] eqn:Ej; [destruct (n_peers n); [congruence | discriminate]|].
    rewrite bind_get, bind_get. replace (n_prevote (set_timer false n)) with (@None (Z * list Z)) by (destruct n; symmetry; exact Np).
    replace (n_id (set_timer false n)) with (n_id n) by (destruct n; reflexivity). rewrite bind_modify. apply ask_all; [destruct n; exact L|].
    intros k Hk. apply find_id. rewrite P1, Ej. exact Hk. }
  rewrite (bind_ok _ _ _ _ _ _ _ _ X). unfold ret, after. rewrite app_nil_r. reflexivity.
Qed.
Lemma call_fails : forall n c, idle_node n -> rq_type (snd c) = prevote_request -> In (fst c) (map p_uid (n_peers n)) ->
  exists n', run_event (ERpc 0 (fst c) true (snd c) None) n = (ROk Nothing, n', []) /\ idle_node n' /\ map p_uid (n_peers n') = map p_uid (n_peers n).
Proof.
  intros n (u & q) (R & T & L & Q & Hb) Tq Hu. cbn [fst snd] in *. apply in_map_iff in Hu. destruct Hu as (p & Pu & Ip).
  cbn [run_event]. unfold rpc_done. rewrite bind_assoc, bind_get. unfold live_ref.
  destruct (find (fun p => p_uid p =? u) (n_peers n)) as [p'|] eqn:F; [|assert (X := find_none _ _ F p Ip); cbn in X; lia].
  unfold handle_ext_resp_err. rewrite Tq.
  exists (upd_peer (PPeer (p_id p')) (p_slow_down (n_prm n)) n). split; [reflexivity|]. cbn [upd_peer]. unfold idle_node, set_peers. cbn [n_role n_timer n_leader n_quick n_smc n_peers].
  split; [split; [exact R|]; split; [exact T|]; split; [exact L|]; split; [exact Q|]|].
  - intros y Hy. unfold upd_peers in Hy. apply in_map_iff in Hy. destruct Hy as (z & <- & Hz). destruct (p_id z =? p_id p')%Z; apply (Hb _ Hz).
  - unfold upd_peers. rewrite map_map. apply map_ext. intros z. destruct (p_id z =? p_id p')%Z; reflexivity.
Qed.

Section PreRest.
  Variable servers : list srv_config.
  Variable prm : Z -> params.
  Notation ids := (Cluster.ids servers).
  Notation step := (Cluster.step servers prm).
  Notation reach := (Cluster.reach servers prm).
  Definition others_same (i : Z) (w w' : world) : Prop := forall j, j <> i -> w_sys w' j = w_sys w j /\ w_hist w' j = w_hist w j.

  Lemma calls_fail : forall w0 i cs w n, In i ids -> reach w0 w -> w_sys w i = Up n -> idle_node n ->
    (forall c, In c cs -> sent w i (fst c) true (snd c) /\ rq_type (snd c) = prevote_request /\ In (fst c) (map p_uid (n_peers n))) ->
    exists w' n', reach w0 w' /\ w_sys w' i = Up n' /\ idle_node n' /\ w_hist w' i = w_hist w i ++ map failed cs /\ others_same i w w'.
  Proof.
    intros w0 i cs. induction cs as [|c cs IH]; intros w n Hi R Wi Id H.
    { exists w, n. cbn [map]. rewrite app_nil_r. split; [exact R|]. split; [exact Wi|]. split; [exact Id|]. split; [reflexivity|]. intros j D. auto. }
    destruct (H c (or_introl eq_refl)) as (S1 & S2 & S3). destruct (call_fails n c Id S2 S3) as (n1 & E & Id1 & U1).
    set (w1 := next_world w i (Up n1) [failed c]).
    assert (St : step w w1) by (apply (W_event servers prm w i n (ERpc 0 (fst c) true (snd c) None) (ROk Nothing) n1 [] Hi Wi S1 E eq_refl)).
    assert (H1 : w_hist w1 i = w_hist w i ++ [failed c]) by (unfold w1, next_world; cbn [w_hist]; apply put_same).
    destruct (IH w1 n1 Hi (Reach_S _ _ _ _ _ R St)) as (w' & n' & R' & W' & Id' & Hh & O).
    - unfold w1, next_world. cbn [w_sys]. apply put_same.
    - exact Id1.
    - intros c' Hc. destruct (H c' (or_intror Hc)) as (T1 & T2 & T3). split; [|split; [exact T2 | rewrite U1; exact T3]].
      unfold sent, w1, failed. rewrite acts_next, put_same. apply in_or_app. left. exact T1.
    - exists w', n'. split; [exact R'|]. split; [exact W'|]. split; [exact Id'|]. split; [rewrite Hh, H1, <- app_assoc; reflexivity|].
      intros j D. destruct (O j D) as (O1 & O2). unfold w1, next_world in O1, O2. cbn [w_sys w_hist] in O1, O2. rewrite put_other in O1, O2 by exact D. auto.
  Qed.

  (** what at_rest asks of one server *)
  Definition rests (w : world) (i : Z) : Prop := 
    (exists n, w_sys w i = Up n /\ idle_node n) /\
    exists cs, w_hist w i = mkObs EElection (map call cs) (Some Nothing) :: map failed cs.
  Lemma rests_ok : forall w, (forall i, In i ids -> rests w i) -> at_rest servers w.
  Proof.
    intros w H i Hi. destruct (H i Hi) as ((n & Wi & R & T & L & Q & Hb) & cs & Hh).
    assert (A : w_acts w i = map call cs).
    { unfold w_acts. rewrite Hh. unfold acts_of. cbn [map concat flat_map o_acts]. replace (concat (map o_acts (map failed cs))) with (@nil act); [apply app_nil_r|].
      clear. induction cs as [|c cs IH]; [reflexivity | exact IH]. }
    split; [exists n; split; [exact Wi|]; split; [exact R|]; split; [exact T|]; split; [exact L|]; split; [exact Q|]; intros j p F; apply Hb; eapply find_some; exact F|].
    rewrite A. split; [|split].
    - intros u x q U. unfold under_way in U. rewrite A, Hh in U. cbn [filter is_outcome o_event] in U.
      assert (X : length (filter (is_outcome u x q) (map failed cs)) = length (filter (is_call u x q) (map call cs))).
      { clear. induction cs as [|c cs IH]; [reflexivity|]. cbn [map filter]. change (is_outcome u x q (failed c)) with (is_call u x q (call c)).
        destruct (is_call u x q (call c)); cbn [length]; congruence. }
      lia.
    - intros u q X. apply in_map_iff in X. destruct X as (c & X & _). discriminate.
    - intros s X. apply in_map_iff in X. destruct X as (c & X & _). discriminate.
  Qed.
  Lemma one_rests : forall w0 w i d, cluster_okay servers -> (2 <= length servers)%nat -> In i ids -> pm_prevote (prm i) = true ->
    reach w0 w -> w_sys w i = Down d -> fresh_disk servers d -> w_hist w i = [] -> exists w', reach w0 w' /\ rests w' i /\ others_same i w w'.
  Proof.
    intros w0 w i d HC H2 Hi Pv R Wi D Hh. destruct D as (D1 & D2 & D3 & D4 & D5 & D6).
    set (n0 := start_node i (prm i) d). set (w1 := next_world w i (Up n0) []).
    assert (R1 : reach w0 w1) by (eapply Reach_S; [exact R | apply W_start; assumption]).
    assert (Fi : n_log n0 = a_empty /\ n_role n0 = Follower /\ n_steps n0 = 0%Z /\ n_catching n0 = false /\ n_prm n0 = prm i /\ n_prevote n0 = None /\ n_leader n0 = (-1)%Z /\ n_quick n0 = 0 /\ n_smc n0 = 0 /\
      n_peers n0 = start_peers i (prm i) 0 servers).
    { unfold n0, start_node. rewrite D1, D2, D4. cbn. unfold n_log. cbn. auto 12. }
    destruct Fi as (F1 & F2 & F3 & F4 & F5 & F6 & F7 & F8 & F9 & F10).
    assert (Pi : map p_id (n_peers n0) = pids servers i) by (rewrite F10; apply start_pids; exact HC).
    assert (Hb : forall p, In p (n_peers n0) -> p_hb_sched p = false).
    { rewrite F10. generalize 0. clear. induction servers as [|s l IH]; intros u p Hp; [destruct Hp|]. cbn [start_peers] in Hp.
      destruct (sc_id s =? i)%Z; [apply (IH u p Hp)|]. destruct Hp as [<-|Hp]; [reflexivity|]. apply filter_In in Hp. apply (IH _ p (proj1 Hp)). }
    assert (Ne : n_peers n0 <> []).
    { intros E. rewrite E in Pi. cbn in Pi. destruct HC as (ND & _). 
      assert (X : forall j, In j ids -> j = i). { intros j Hj. destruct (Z.eq_dec j i) as [|Dj]; [assumption|]. assert (Y : In j (pids servers i)) by (apply pids_in; auto). rewrite <- Pi in Y. destruct Y. }
      unfold Cluster.ids in *. destruct servers as [|a [|b l]]; cbn in H2; try lia. cbn in ND, X. assert (A := X _ (or_introl eq_refl)). assert (B := X _ (or_intror (or_introl eq_refl))).
      inversion ND as [|? ? N1 _]. apply N1. left. congruence. }
    destruct (elect_fires n0 F1 Ne F2 F3 F4 ltac:(rewrite F5; exact Pv) F6) as (n1 & E & G1 & G2 & G3 & G4 & G5 & G6).
    set (cs := map (pre_call (n_id n0) n1) (map p_id (n_peers n1))) in *.
    set (w2 := next_world w1 i (Up n1) [mkObs EElection (map call cs) (Some Nothing)]).
    assert (W1 : w_sys w1 i = Up n0) by (unfold w1, next_world; cbn [w_sys]; apply put_same).
    assert (R2 : reach w0 w2) by (eapply Reach_S; [exact R1|]; apply (W_event servers prm w1 i n0 EElection (ROk Nothing) n1 _ Hi W1 I E eq_refl)).
    assert (H2' : w_hist w2 i = [mkObs EElection (map call cs) (Some Nothing)]).
    { unfold w2, w1, next_world. cbn [w_hist]. rewrite !put_same, Hh. reflexivity. }
    assert (W2 : w_sys w2 i = Up n1) by (unfold w2, next_world; cbn [w_sys]; apply put_same).
    assert (Id : idle_node n1).
    { split; [rewrite G1; discriminate|]. split; [exact G2|]. split; [congruence|]. split; [rewrite G4, G5, F8, F9; lia|]. rewrite G6. exact Hb. }
    destruct (calls_fail w0 i cs w2 n1 Hi R2 W2 Id) as (w3 & n3 & R3 & W3 & Id3 & H3 & O3).
    - intros c Hc. split; [unfold sent, w_acts; rewrite H2'; cbn; rewrite app_nil_r; apply (in_map call _ _ Hc)|].
      unfold cs in Hc. apply in_map_iff in Hc. destruct Hc as (j & <- & Hj). split; [reflexivity|]. unfold pre_call. cbn [fst].
      assert (X := find_id _ _ Hj). destruct (find_peer j (n_peers n1)) as [p|] eqn:Fp; [|congruence]. apply in_map. eapply find_some. exact Fp.
    - exists w3. split; [exact R3|]. split.
      + split; [exists n3; auto|]. exists cs. rewrite H3, H2'. reflexivity.
      + intros j Dj. destruct (O3 j Dj) as (O1 & O2). rewrite O1, O2. unfold w2, w1, next_world. cbn [w_sys w_hist]. rewrite !put_other by exact Dj. auto.
  Qed.
  Lemma all_rest : forall w0, cluster_okay servers -> (2 <= length servers)%nat -> (forall i, In i ids -> pm_prevote (prm i) = true) -> initial servers w0 ->
    forall l, incl l ids -> NoDup l -> exists w, reach w0 w /\ (forall i, In i l -> rests w i) /\ forall i, ~ In i l -> w_sys w i = w_sys w0 i /\ w_hist w i = w_hist w0 i.
  Proof.
    intros w0 HC H2 Pv I0 l. induction l as [|i l IH]; intros Hl ND.
    { exists w0. split; [apply Reach_0|]. split; [intros i []|]. auto. }
    inversion ND as [|? ? Ni ND']; subst. destruct (IH (fun j Hj => Hl j (or_intror Hj)) ND') as (w & R & Rs & O). assert (Hi := Hl i (or_introl eq_refl)).
    destruct (O i Ni) as (O1 & O2). destruct (I0 i) as (I1 & I2). destruct (I2 Hi) as (d & Ed & Fd).
    destruct (one_rests w0 w i d HC H2 Hi (Pv i Hi) R ltac:(congruence) Fd ltac:(congruence)) as (w' & R' & Ri & O'). exists w'. split; [exact R'|]. split.
    - intros j [<-|Hj]; [exact Ri|]. assert (D : j <> i) by congruence. destruct (O' j D) as (P1 & P2). specialize (Rs j Hj). unfold rests in *. rewrite P1, P2. exact Rs.
    - intros j Nj. destruct (O' j) as (P1 & P2); [intros ->; apply Nj; left; reflexivity|]. rewrite P1, P2. apply O. intros Hj. apply Nj. right. exact Hj.
  Qed.
End PreRest.

Theorem C109_all_pre_votes_refuted : forall servers prm w0, cluster_okay servers -> (2 <= length servers)%nat -> (forall i, In i (ids servers) -> pm_prevote (prm i) = true) -> initial servers w0 ->
  exists w, reach servers prm w0 w /\ at_rest servers w /\ forall w', goes_to servers w w' -> forall i, In i (ids servers) -> exists n, w_sys w' i = Up n /\ n_role n <> Leader.
Proof.
  intros servers prm w0 HC H2 Pv I0. destruct (all_rest servers prm w0 HC H2 Pv I0 (ids servers) (fun i H => H) (proj1 HC)) as (w & R & Rs & _). exists w. split; [exact R|].
  assert (A := rests_ok servers prm w Rs). split; [exact A|]. intros w' G i Hi. destruct (C109_rest_is_for_ever servers w w' A G) as (_ & A'). destruct (A' i Hi) as ((n & Wn & Rn & _) & _). exists n. auto.
Qed.

(** ** The hypotheses are met: three servers without pre-votes, after the first one has called an
    election and its messages were lost; the second still runs and has a timer, and so does the first. *)
Definition is_up (x : sys) (P : node -> Prop) : Prop := exists n, x = Up n /\ P n.
Definition nopre_cmds : list kcmd := [KStart 1; KStart 2; KStart 3; KDo 1 EElection; KLost 1 2 0; KLost 1 3 0]%Z.
Definition nopre_run : world := ex_run_with ex_prm nopre_cmds.
Lemma nopre_up : is_up (w_sys nopre_run 1%Z) (fun n => n_role n = Candidate) /\ is_up (w_sys nopre_run 2%Z) (fun n => n_role n = Follower).
Proof. split; vm_compute; eexists; split; reflexivity. Qed.
Example C109_example :
  (exists n, w_sys nopre_run 1%Z = Up n /\ n_role n = Candidate /\ enabled ex_servers nopre_run 1%Z n EElection) /\
  (exists n, w_sys nopre_run 2%Z = Up n /\ n_role n = Follower /\ enabled ex_servers nopre_run 2%Z n EElection) /\
  ~ at_rest ex_servers nopre_run /\ at_rest ex_servers rest_run.
Proof.
  assert (R : reach ex_servers (fun _ => ex_prm) ex_world nopre_run) by apply ex_reach_with.
  assert (NS : no_snapshots (fun _ => ex_prm)) by (intros i; reflexivity).
  destruct nopre_up as ((n1 & W1 & R1) & (n2 & W2 & R2)).
  split; [exists n1; split; [exact W1|]; split; [exact R1|]; eapply (C109_timer_runs_partial ex_servers (fun _ => ex_prm) ex_world); eauto using ex_okay, ex_initial; [vm_compute; auto | congruence]|].
  split; [exists n2; split; [exact W2|]; split; [exact R2|]; eapply (C109_timer_runs_partial ex_servers (fun _ => ex_prm) ex_world); eauto using ex_okay, ex_initial; [vm_compute; auto | congruence]|].
  split; [apply (C109_never_at_rest_partial ex_servers (fun _ => ex_prm) ex_world _ ex_okay NS); [discriminate | exact ex_initial | exact R | reflexivity]|].
  apply quietb_ok. vm_compute. reflexivity.
Qed.

Print Assumptions C109_rest_is_for_ever.
Print Assumptions C109_timer_runs_partial.
Print Assumptions C109_never_at_rest_partial.
Print Assumptions C109_rest_refuted.
Print Assumptions C109_all_pre_votes_refuted.
