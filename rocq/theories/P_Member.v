(** * P_Member: elections while the members of the cluster change (C84) *)

From Coq Require String. Import String.StringSyntax.
From Verif Require Import Base Buffer Codec CodecSpec Msg FsLogStore FsLogSpec Alog
  Raft NodeSpec NodeLife NodeExamples Cluster ClusterElect ClusterExamples ClusterRun Member MemberElect.
Local Open Scope N_scope.

(** ** Votes *)

(** A server that becomes leader has the votes, on disk, of more than half as many
    servers as it has members at that moment.  Members may have been added and removed in
    any way; servers may have crashed; invited servers were new. *)
Theorem C84_votes : forall servers prm w0 w w' i t m, ~ In (-1)%Z (ids servers) -> blank servers w0 ->
  mreach servers prm w0 w -> takes_over servers prm w w' i t m -> new_joins w' ->
  exists voters, NoDup voters /\ incl voters (ids servers) /\ (m < 2 * length voters)%nat /\
    forall j, In j voters -> In (ASaveState t i) (w_acts w' j).
Proof.
  intros servers prm w0 w w' i t m Hn B R T J. assert (S := T). destruct S as (_ & S & _).
  eapply (takes_backers servers prm Hn w w' i t m); [|exact J | exact T].
  eapply mreach_inv; [exact Hn | exact B | exact R | eapply mstep_before; eassumption].
Qed.

(** Two servers that become leader of the same term are the same server, if the numbers of
    members they have are large enough: more than half of the one and more than half of the
    other are more than all servers.  The members need not be the same.

    Missing: servers that use configurations of different sizes, or of the same size, when
    there is an even number of servers; see [C84_one_leader_refuted]. *)
Theorem C84_overlap_partial : forall servers prm w0 w i j t wi wi' wj wj' mi mj, ~ In (-1)%Z (ids servers) -> blank servers w0 ->
  new_joins w ->
  mreach servers prm w0 wi -> takes_over servers prm wi wi' i t mi -> mreach servers prm wi' w ->
  mreach servers prm w0 wj -> takes_over servers prm wj wj' j t mj -> mreach servers prm wj' w ->
  (length servers < Nat.div mi 2 + 1 + (Nat.div mj 2 + 1))%nat -> i = j.
Proof.
  intros servers prm w0 w i j t wi wi' wj wj' mi mj Hn B J R1 T1 R1' R2 T2 R2' L.
  assert (S1 := T1). assert (S2 := T2). destruct S1 as (I1 & S1 & _), S2 as (I2 & S2 & _).
  assert (J1 : new_joins wi') by (eapply mreach_before; eassumption). assert (J2 : new_joins wj') by (eapply mreach_before; eassumption).
  assert (Mw : mwinv servers w).
  { assert (R : mreach servers prm w0 w).
    { clear -R1 S1 R1'. induction R1'; [eapply MReach_S; eassumption | eapply MReach_S; eassumption]. }
    eapply mreach_inv; eassumption. }
  assert (Up : forall v k m, mreach servers prm v w -> backers servers v t k m -> backers servers w t k m).
  { intros v k m Rv (C & C1 & C2 & C3 & C4). exists C. split; [exact C1|]. split; [exact C2|]. split; [exact C3|]. intros x Hx. apply (mreach_grow servers prm v w Rv x), C4, Hx. }
  apply (backers_one servers prm Hn w t i j mi mj Mw I1 I2).
  - apply (Up wi'); [exact R1'|]. eapply (takes_backers servers prm Hn); [eapply mreach_inv; [exact Hn | exact B | exact R1 | eapply mstep_before; eassumption] | exact J1 | exact T1].
  - apply (Up wj'); [exact R2'|]. eapply (takes_backers servers prm Hn); [eapply mreach_inv; [exact Hn | exact B | exact R2 | eapply mstep_before; eassumption] | exact J2 | exact T2].
  - unfold ids. rewrite map_length. lia.
Qed.

(** So removing one server from a cluster of an odd number of servers, or adding one that
    makes their number odd, is safe for elections: as long as every new leader counts at
    least all servers but one, a term has at most one leader. *)
Theorem C84_odd_partial : forall servers prm w0 w i j t wi wi' wj wj' mi mj k, ~ In (-1)%Z (ids servers) -> blank servers w0 ->
  new_joins w -> length servers = (2 * k + 1)%nat ->
  mreach servers prm w0 wi -> takes_over servers prm wi wi' i t mi -> mreach servers prm wi' w ->
  mreach servers prm w0 wj -> takes_over servers prm wj wj' j t mj -> mreach servers prm wj' w ->
  (2 * k <= mi)%nat -> (2 * k <= mj)%nat -> i = j.
Proof.
  intros servers prm w0 w i j t wi wi' wj wj' mi mj k Hn B J L R1 T1 R1' R2 T2 R2' L1 L2.
  eapply (C84_overlap_partial servers prm w0 w i j t wi wi' wj wj' mi mj); try eassumption.
  assert (X : (k <= Nat.div mi 2)%nat) by (apply Nat.div_le_lower_bound; lia). assert (Y : (k <= Nat.div mj 2)%nat) by (apply Nat.div_le_lower_bound; lia). lia.
Qed.

(** ** Examples: who takes over when an answer arrives *)
Definition over_at (w : world) (k j : Z) (m : nat) : option (list N * nat) :=
  match pick w k j m with
  | Some (u, x, q) =>
      match answer_to q (w_hist w j), w_sys w k with
      | Some r, Up n => let '(a, n', l) := run_event (ERpc 0 u x q (Some r)) n in if goes_on a then Some (leads l, S (length (n_peers n))) else None
      | _, _ => None
      end
  | None => None
  end.
Lemma late_over : forall servers prm w k j m t mm, memb servers k = true -> memb servers j = true -> over_at w k j m = Some ([t], mm) ->
  takes_over servers prm w (run_k servers prm w (KLate k j m)) k t mm.
Proof.
  intros servers prm w k j m t mm Hk Hj H. unfold over_at in H. cbn [run_k]. destruct (pick w k j m) as [[[u x] q]|] eqn:Ep; [|discriminate].
  destruct (pick_sent prm _ _ _ _ _ _ _ Ep) as [P1 P2]. rewrite Hk, Hj. cbn [andb].
  destruct (answer_to q (w_hist w j)) as [r|] eqn:Ea; [|discriminate]. destruct (w_sys w k) as [n|d] eqn:Es; [|discriminate].
  unfold event_at. rewrite Es. destruct (run_event (ERpc 0 u x q (Some r)) n) as [[a n'] l] eqn:Er. destruct (goes_on a) eqn:Eg; [|discriminate]. cbn [fst]. inversion H as [[H1 H2]].
  apply (memb_in servers prm) in Hk. apply (memb_in servers prm) in Hj. split; [exact Hk|]. split.
  - eapply M_event; [exact Hk | exact Es | | exact Er | exact Eg]. left. split; [exact P1|]. rewrite P2. split; [exact Hj | apply answer_to_in, Ea].
  - exists n, l. split; [exact Es|]. split; [rewrite acts_next, put_same; reflexivity|]. split; [apply leads_in; rewrite H1; left; reflexivity | reflexivity].
Qed.
Definition joinedb (w : world) (i : Z) : bool :=
  existsb (fun o => match o_event o with ERequest _ q => beq (rq_type q) join_cluster_request | _ => false end) (w_hist w i).
Lemma not_joined : forall w, (forall i, joinedb w i = false) -> new_joins w.
Proof.
  intros w H i h o h' E (now & q & E1 & E2) t v _. specialize (H i). unfold joinedb in H.
  assert (X : existsb (fun o => match o_event o with ERequest _ q => beq (rq_type q) join_cluster_request | _ => false end) (w_hist w i) = true).
  { apply existsb_exists. exists o. split; [rewrite E; apply in_or_app; right; left; reflexivity|]. rewrite E1, E2. reflexivity. }
  congruence.
Qed.

(** ** One removal from a cluster of four servers *)
Definition four : list srv_config := map ex_srv [1; 2; 3; 4]%Z.
Definition four_disk : disk := mkDisk None (mkCfg 0 0 four) a_empty 0 None [].
Definition four_world : world := mkWorld (fun _ => Down four_disk) (fun _ => []).
Definition four_run (cs : list mcmd) : world := fold_left (run_m four (fun _ => ex_prm)) cs four_world.
Lemma four_blank : blank four four_world.
Proof. intros i. split; [reflexivity|]. intros _. exists four_disk. split; [reflexivity|]. split; [reflexivity|]. vm_compute. discriminate. Qed.
Lemma four_initial : initial four four_world.
Proof. intros i. split; [reflexivity|]. intros _. exists four_disk. split; [reflexivity|]. repeat split. Qed.
Lemma four_reach : forall cs, mreach four (fun _ => ex_prm) four_world (four_run cs).
Proof. intros cs. apply run_ms_reach. constructor. Qed.

(** 1 is leader, server 4 is removed; everybody but 4 has the new configuration in its log and
    knows that it is committed, 1 and 2 use it, the committing thread of 3 has not come to it *)
Definition four_removed : list mcmd :=
  (map MK [KStart 1; KStart 2; KStart 3; KStart 4; KDo 1 EElection; KRpc 1 4 0; KRpc 1 2 0; KRpc 1 3 1;
           KRpc 1 2 0; KRpc 1 3 0; KRpc 1 4 0; KDo 1 ECommit; KRpc 1 2 0; KRpc 1 3 0; KRpc 1 4 0; KDo 4 ECommit] ++
   [MAsk 1 (ERemoveSrv 0 4); MK (KRpc 1 4 0)] ++
   map MK [KRpc 1 2 0; KRpc 1 3 0; KDo 1 ECommit; KRpc 1 2 0; KRpc 1 3 0; KDo 2 ECommit; KDo 2 ECommit])%Z.
(** 2 campaigns and wins with the vote of 1, two of three; 3 campaigns and has the vote of 4, two of four *)
Definition four_second : list mcmd := map MK [KDo 2 EElection; KRpc 2 1 0; KDo 3 EElection; KRpc 3 4 0]%Z.
(** 3 commits the configuration: there are three members now; 1 has voted for 2 and tells 3 so *)
Definition four_third : list mcmd := map MK [KDo 3 ECommit; KDo 3 ECommit; KRpc 3 1 0]%Z.
(** each of the two leaders replicates an entry to 1 *)
Definition four_fourth : list mcmd :=
  map MK [KDo 2 (EReplicate 0 [x61]); KDo 3 (EReplicate 0 [x62]); KRpc 2 1 0; KRpc 2 1 0; KDo 2 ECommit; KRpc 3 1 0; KRpc 3 1 0; KDo 3 ECommit]%Z.
Definition four_all : world := four_run (four_removed ++ four_second ++ four_third ++ four_fourth).

Definition first_app (l : list act) : option (N * entry_val) :=
  fold_right (fun a o => match a with ACommit k e => Some (k, e) | _ => o end) None l.
Lemma first_app_in : forall l k e, first_app l = Some (k, e) -> In (ACommit k e) l.
Proof.
  induction l as [|a l IH]; intros k e H; [discriminate|]. destruct a; cbn [first_app fold_right] in H; try (right; apply IH, H).
  inversion H; subst. left. reflexivity.
Qed.
Definition lives (w : world) (i : Z) : bool := match w_sys w i with Up _ => true | Down _ => false end.

Lemma four_leads : forallb (fun i => existsb (N.eqb 2) (leads (w_acts four_all i))) [2; 3]%Z = true.
Proof. vm_compute. reflexivity. Qed.
Lemma four_led : forall i, In i [2; 3]%Z -> In (ABecomeLeader 2) (w_acts four_all i).
Proof.
  intros i Hi. assert (H := four_leads). rewrite forallb_forall in H. specialize (H i Hi). apply existsb_exists in H. destruct H as (t & H1 & H2).
  apply N.eqb_eq in H2. subst t. exact (proj1 (leads_in (w_acts four_all i) 2) H1).
Qed.
Lemma four_lives : forallb (lives four_all) [1; 2; 3; 4]%Z = true.
Proof. vm_compute. reflexivity. Qed.
Lemma four_joins : forallb (fun k => negb (joinedb four_all k)) [1; 2; 3; 4]%Z = true.
Proof. vm_compute. reflexivity. Qed.
Lemma four_app_2 : first_app (w_acts four_all 2%Z) = Some (3, mkEV 2 app_log [x61]).
Proof. vm_compute. reflexivity. Qed.
Lemma four_app_3 : first_app (w_acts four_all 3%Z) = Some (3, mkEV 2 app_log [x62]).
Proof. vm_compute. reflexivity. Qed.
Lemma others_silent : forall servers prm w0 w k, mreach servers prm w0 w -> ~ In k (ids servers) -> w_hist w k = w_hist w0 k.
Proof.
  intros servers prm w0 w k R Hk. induction R as [|w w' R IH S]; [reflexivity|].
  destruct S as [k0 n e r n' l H1|k0 n e r n' l H1|k0 n e r n' p q H1|k0 d H1]; unfold next_world; cbn [w_hist];
    (rewrite put_other; [exact IH | intros ->; apply Hk; exact H1]).
Qed.
Lemma four_ids : ids four = [1; 2; 3; 4]%Z.
Proof. reflexivity. Qed.
Lemma four_okay : cluster_okay four.
Proof.
  unfold cluster_okay. rewrite four_ids. split.
  { repeat (constructor; [cbn; intuition lia|]). constructor. }
  split; [cbn; intuition lia|]. split; [|vm_compute; reflexivity].
  assert (G : forall i, (0 <= i < 10)%Z -> srv_ok (ex_srv i)).
  { intros i Hi. unfold srv_ok, ex_srv. cbn [sc_id sc_endpoint]. split; [unfold is_int32; lia|]. split; [discriminate|].
    intros H. vm_compute in H. intuition discriminate. }
  unfold four. cbn [map]. repeat (apply Forall_cons; [apply G; lia|]). apply Forall_nil.
Qed.
Lemma four_new : new_joins four_all.
Proof.
  apply not_joined. intros i. assert (H := four_joins). destruct (in_dec Z.eq_dec i [1; 2; 3; 4]%Z) as [Hi|Hi].
  - rewrite forallb_forall in H. specialize (H i Hi). apply negb_true_iff in H. exact H.
  - assert (E := others_silent four (fun _ => ex_prm) four_world four_all i (four_reach _) ltac:(rewrite four_ids; exact Hi)).
    unfold joinedb. rewrite E. reflexivity.
Qed.

(** the requests a server has handled, and those it has been given the answer of *)
Definition handled_reqs (w : world) (i : Z) : list req :=
  flat_map (fun o => match o_event o with ERequest _ q => [q] | _ => [] end) (w_hist w i).
Definition answered_reqs (w : world) (i : Z) : list req :=
  flat_map (fun o => match o_event o with ERpc _ _ _ q _ => [q] | _ => [] end) (w_hist w i).
Definition once_eachb (l : list req) : bool := forallb (fun q => Nat.eqb (count_occ ClusterExamples.req_dec l q) 1) l.
Lemma once_each : forall l, once_eachb l = true -> NoDup l.
Proof.
  intros l H. apply (NoDup_count_occ ClusterExamples.req_dec). intros q. destruct (in_dec ClusterExamples.req_dec q l) as [Hq|Hq].
  - unfold once_eachb in H. rewrite forallb_forall in H. specialize (H q Hq). apply Nat.eqb_eq in H. rewrite H. constructor.
  - apply (count_occ_not_In ClusterExamples.req_dec) in Hq. rewrite Hq. constructor. constructor.
Qed.
Lemma four_once : forallb (fun k => once_eachb (handled_reqs four_all k) && once_eachb (answered_reqs four_all k)) [1; 2; 3; 4]%Z = true.
Proof. vm_compute. reflexivity. Qed.

(** At most one leader per term: false as soon as the membership changes.  Four servers, one of
    them is removed once; no server crashes, no request is handled or answered twice.  A
    candidate counts the vote of a member that is no longer one when it wins, and the answer
    that makes it win is a rejection. *)
Theorem C84_one_leader_refuted : exists servers prm w0 w i j t,
  cluster_okay servers /\ initial servers w0 /\ mreach servers prm w0 w /\ new_joins w /\
  led servers w i t /\ led servers w j t /\ i <> j /\
  (forall k, In k (ids servers) -> lives w k = true /\ NoDup (handled_reqs w k) /\ NoDup (answered_reqs w k)).
Proof.
  exists four, (fun _ => ex_prm), four_world, four_all, 2%Z, 3%Z, 2.
  split; [exact four_okay|]. split; [exact four_initial|]. split; [exact (four_reach _)|]. split; [exact four_new|].
  unfold led. rewrite four_ids. split; [split; [right; left; reflexivity | apply four_led; left; reflexivity]|].
  split; [split; [right; right; left; reflexivity | apply four_led; right; left; reflexivity]|]. split; [discriminate|].
  intros k Hk. split; [exact (proj1 (forallb_forall _ _) four_lives k Hk)|].
  assert (H := proj1 (forallb_forall _ _) four_once k Hk). cbv beta in H. apply andb_true_iff in H. destruct H as [H1 H2].
  split; apply once_each; assumption.
Qed.

(** All servers apply the same entries: false as soon as the membership changes, in the same run.
    Both leaders commit an entry of their own at the same index, each with the same follower. *)
Theorem C84_applied_refuted : exists servers prm w0 w i j k e1 e2,
  initial servers w0 /\ mreach servers prm w0 w /\ applied servers w i k e1 /\ applied servers w j k e2 /\ ev_data e1 <> ev_data e2.
Proof.
  exists four, (fun _ => ex_prm), four_world, four_all, 2%Z, 3%Z, 3, (mkEV 2 app_log [x61]), (mkEV 2 app_log [x62]).
  split; [exact four_initial|]. split; [exact (four_reach _)|]. unfold applied. rewrite four_ids.
  split; [split; [right; left; reflexivity | exact (first_app_in _ _ _ four_app_2)]|]. split; [split; [right; right; left; reflexivity | exact (first_app_in _ _ _ four_app_3)]|]. discriminate.
Qed.

(** the bound of [C84_overlap_partial] is exact: both leaders of that run had three members *)
Example C84_example_exact :
  takes_over four (fun _ => ex_prm) (four_run (four_removed ++ map MK [KDo 2 EElection; KDeliver 2 1 0]%Z))
    (run_k four (fun _ => ex_prm) (four_run (four_removed ++ map MK [KDo 2 EElection; KDeliver 2 1 0]%Z)) (KLate 2 1 0)) 2 2 3 /\
  takes_over four (fun _ => ex_prm) (four_run (four_removed ++ four_second ++ map MK [KDo 3 ECommit; KDo 3 ECommit; KDeliver 3 1 0]%Z))
    (run_k four (fun _ => ex_prm) (four_run (four_removed ++ four_second ++ map MK [KDo 3 ECommit; KDo 3 ECommit; KDeliver 3 1 0]%Z)) (KLate 3 1 0)) 3 2 3 /\
  (length four = Nat.div 3 2 + 1 + (Nat.div 3 2 + 1))%nat.
Proof.
  split; [apply late_over; vm_compute; reflexivity|]. split; [apply late_over; vm_compute; reflexivity | reflexivity].
Qed.

(** ** Concrete cases of the theorems *)
Definition savesb (l : list act) : bool := existsb (fun a => match a with ASaveState _ _ => true | _ => false end) l.
Fixpoint newb (before : bool) (h : list obs) : bool :=
  match h with
  | [] => true
  | o :: h => negb (before && match o_event o with ERequest _ q => beq (rq_type q) join_cluster_request | _ => false end) && newb (before || savesb (o_acts o)) h
  end.
Lemma savesb_in : forall l t v, In (ASaveState t v) l -> savesb l = true.
Proof. intros l t v H. apply existsb_exists. exists (ASaveState t v). split; [exact H | reflexivity]. Qed.
Lemma newb_ok : forall h b, newb b h = true -> forall h1 o h2, h = h1 ++ o :: h2 -> got join_cluster_request o -> b = false /\ forall t v, ~ In (ASaveState t v) (acts_of h1).
Proof.
  induction h as [|x h IH]; intros b H h1 o h2 E G; [destruct h1; discriminate|]. cbn [newb] in H. apply andb_prop in H. destruct H as [H1 H2].
  destruct h1 as [|y h1]; cbn [app] in E; inversion E; subst.
  - destruct G as (now & q & E1 & E2). rewrite E1, E2 in H1. destruct b; [discriminate|]. split; [reflexivity | intros t v []].
  - destruct (IH _ H2 h1 o h2 eq_refl G) as [X Y]. apply orb_false_elim in X. destruct X as [X1 X2]. split; [exact X1|].
    intros t v Hin. unfold acts_of in Hin. cbn [map concat] in Hin. apply in_app_or in Hin. destruct Hin as [Hin|Hin]; [rewrite (savesb_in _ _ _ Hin) in X2; discriminate | apply (Y t v Hin)].
Qed.
Lemma new_check : forall servers prm w0 w, (forall i, w_hist w0 i = []) -> mreach servers prm w0 w ->
  forallb (fun i => newb false (w_hist w i)) (ids servers) = true -> new_joins w.
Proof.
  intros servers prm w0 w B R H i h o h' E G. destruct (in_dec Z.eq_dec i (ids servers)) as [Hi|Hi].
  - rewrite forallb_forall in H. apply (newb_ok _ _ (H i Hi) h o h' E G).
  - exfalso. rewrite (others_silent _ _ _ _ _ R Hi), B in E. destruct h; discriminate.
Qed.

Lemma run_k_mreach : forall servers prm w0 w c, mreach servers prm w0 w -> mreach servers prm w0 (run_k servers prm w c).
Proof. intros servers prm w0 w c R. exact (run_m_reach servers prm w0 w (MK c) R). Qed.

(** Server 3 is added to a cluster of two servers; it handles an invitation, gets the log and
    votes for 2, which becomes leader of term 2 with three members. *)
Definition grow_disk (c : list srv_config) : disk := mkDisk None (mkCfg 0 0 c) a_empty 0 None [].
Definition grow_world : world := mkWorld (fun i => Down (grow_disk (if (i =? 3)%Z then [ex_srv 3%Z] else map ex_srv [1; 2]%Z))) (fun _ => []).
Definition three : list srv_config := map ex_srv [1; 2; 3]%Z.
Definition grow_run : world := fold_left (run_m three (fun _ => ex_prm))
  (map MK [KStart 1; KStart 2; KStart 3; KDo 1 EElection; KRpc 1 2 0; KRpc 1 2 0; KDo 1 ECommit] ++
   [MAsk 1 (EAddSrv 0 (ex_srv 3)); MK (KRpc 1 3 0)] ++
   map MK [KRpc 1 2 0; KRpc 1 2 0; KDo 1 ECommit; KDo 1 (EHeartbeat 3); KRpc 1 3 0; KRpc 1 3 0; KRpc 1 2 0; KDo 2 ECommit; KDo 2 ECommit; KDo 3 ECommit; KDo 3 ECommit;
           KDo 2 EElection; KDeliver 2 3 0])%Z grow_world.
Example C84_example : ~ In (-1)%Z (ids three) /\ blank three grow_world /\ mreach three (fun _ => ex_prm) grow_world grow_run /\
  takes_over three (fun _ => ex_prm) grow_run (run_k three (fun _ => ex_prm) grow_run (KLate 2 3 0)) 2 2 3 /\
  new_joins (run_k three (fun _ => ex_prm) grow_run (KLate 2 3 0)) /\ joinedb grow_run 3 = true.
Proof.
  assert (R : mreach three (fun _ => ex_prm) grow_world grow_run) by (apply run_ms_reach; constructor).
  split; [cbn; intuition lia|]. split.
  { intros i. split; [reflexivity|]. intros _. eexists. split; [reflexivity|]. split; [reflexivity|]. vm_compute. discriminate. }
  split; [exact R|]. split; [apply late_over; vm_compute; reflexivity|]. split; [|vm_compute; reflexivity].
  assert (R2 : mreach three (fun _ => ex_prm) grow_world (run_k three (fun _ => ex_prm) grow_run (KLate 2 3 0))) by (exact (run_k_mreach three (fun _ => ex_prm) grow_world grow_run (KLate 2 3 0) R)).
  apply (new_check three (fun _ => ex_prm) grow_world); [reflexivity | exact R2 | vm_compute; reflexivity].
Qed.

(** Server 5 is removed from a cluster of five; server 2 takes over with four members. *)
Definition five : list srv_config := map ex_srv [1; 2; 3; 4; 5]%Z.
Definition five_world : world := mkWorld (fun _ => Down (grow_disk five)) (fun _ => []).
Definition five_run : world := fold_left (run_m five (fun _ => ex_prm))
  (map MK [KStart 1; KStart 2; KStart 3; KStart 4; KStart 5; KDo 1 EElection; KRpc 1 2 0; KRpc 1 3 0; KRpc 1 2 0; KRpc 1 3 0; KDo 1 ECommit] ++
   [MAsk 1 (ERemoveSrv 0 5); MK (KRpc 1 5 0)] ++
   map MK [KRpc 1 2 0; KRpc 1 3 0; KRpc 1 2 0; KRpc 1 3 0; KDo 1 ECommit; KRpc 1 2 0; KDo 2 ECommit; KDo 2 ECommit; KDo 2 EElection; KRpc 2 1 0; KDeliver 2 3 0])%Z five_world.
Example C84_example_odd : blank five five_world /\ length five = (2 * 2 + 1)%nat /\
  mreach five (fun _ => ex_prm) five_world five_run /\
  takes_over five (fun _ => ex_prm) five_run (run_k five (fun _ => ex_prm) five_run (KLate 2 3 0)) 2 2 4 /\ (2 * 2 <= 4)%nat /\
  new_joins (run_k five (fun _ => ex_prm) five_run (KLate 2 3 0)).
Proof.
  assert (R : mreach five (fun _ => ex_prm) five_world five_run) by (apply run_ms_reach; constructor).
  split. { intros i. split; [reflexivity|]. intros _. eexists. split; [reflexivity|]. split; [reflexivity|]. vm_compute. discriminate. }
  split; [reflexivity|]. split; [exact R|]. split; [apply late_over; vm_compute; reflexivity|]. split; [lia|].
  assert (R2 : mreach five (fun _ => ex_prm) five_world (run_k five (fun _ => ex_prm) five_run (KLate 2 3 0))) by (exact (run_k_mreach five (fun _ => ex_prm) five_world five_run (KLate 2 3 0) R)).
  apply (new_check five (fun _ => ex_prm) five_world); [reflexivity | exact R2 | vm_compute; reflexivity].
Qed.

Print Assumptions C84_votes.
Print Assumptions C84_overlap_partial.
Print Assumptions C84_odd_partial.
Print Assumptions C84_one_leader_refuted.
Print Assumptions C84_applied_refuted.
