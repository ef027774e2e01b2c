(** * A cluster on files (C99) *)

From Verif Require Import Base Buffer Codec CodecSpec Msg FsLogStore FsLogSpec FsLogProofs FsLogTop FsLogCrash P_LogStore P_Crash Raft NodeSpec NodeExamples
  Stack P_Stack Cluster ClusterElect ClusterExamples P_Cluster StackCluster.
From Coq Require Import Lia.
Local Open Scope N_scope.

Lemma flife_app id pm x h ops y : flife id pm x h ops y -> forall h' ops' x', flife id pm y h' ops' x' -> flife id pm x (h ++ h') (ops ++ ops') x'.
Proof.
  induction 1; intros h' ops'' x' H'.
  - exact H'.
  - cbn [app]. rewrite <- app_assoc. eapply F_event; eauto.
  - cbn [app]. rewrite <- app_assoc. eapply F_stop; eauto.
  - cbn [app]. rewrite <- app_assoc. eapply F_crash; eauto.
  - cbn [app]. eapply F_start; eauto.
Qed.

(** what the world says about one server *)
Definition is_at (w : fworld) (i : Z) (x : fsys) : Prop :=
  match x with
  | FUp n s => w_sys (fw_world w) i = Up n /\ fw_files w i = Open s
  | FDown d f => w_sys (fw_world w) i = Down d /\ fw_files w i = Closed f
  end.

Section Files.
  Variable servers : list srv_config.
  Variable prm : Z -> params.
  Variable w0 : fworld.
  Hypothesis I0 : finitial servers w0.

  Definition own_life (w : fworld) : Prop := forall i, In i (ids servers) -> exists d x,
    w_sys (fw_world w0) i = Down d /\ dk_log d = a_empty /\ is_at w i x /\
    flife i (prm i) (FDown d empty_folder) (w_hist (fw_world w) i) (fw_ops w i) x.

  Lemma own_next w i x o f ops y z : own_life w -> In i (ids servers) -> is_at w i y ->
    is_at (fnext w i x o f ops) i z -> flife i (prm i) y o ops z -> own_life (fnext w i x o f ops).
  Proof.
    intros H Hi Hy Hz L j Hj. destruct (H j Hj) as (d & x' & E & El & A & F).
    destruct (Z.eq_dec j i) as [->|Ne].
    - assert (x' = y) as ->.
      { unfold is_at in A, Hy. destruct x', y; destruct A as [A1 A2], Hy as [B1 B2]; rewrite A1 in B1; rewrite A2 in B2; congruence. }
      exists d, z. split; [exact E|]. split; [exact El|]. split; [exact Hz|].
      unfold fnext, next_world. cbn [fw_world w_hist fw_ops]. rewrite !put_same. eapply flife_app; eassumption.
    - exists d, x'. split; [exact E|]. split; [exact El|]. unfold fnext, next_world, is_at in *. cbn [fw_world w_hist w_sys fw_files fw_ops] in *.
      rewrite !put_other by exact Ne. auto.
  Qed.
  Lemma freach_own w : freach servers prm w0 w -> own_life w.
  Proof.
    induction 1 as [|w w' R IH S].
    - intros i Hi. destruct I0 as [I1 I2]. destruct (I1 i) as [Eh Hd]. destruct (Hd Hi) as (d & Ed & Fd). destruct (I2 i) as [Ef Eo].
      exists d, (FDown d empty_folder). split; [exact Ed|]. split; [apply Fd|]. split; [split; assumption|]. rewrite Eh, Eo. constructor.
    - inversion S; subst.
      + eapply (own_next w i _ _ _ _ (FUp n s) (FUp n' (snd (run_lops ops s)))); try eassumption; [split; assumption | |].
        { unfold fnext, next_world, is_at. cbn. rewrite !put_same. auto. }
        rewrite <- (app_nil_r ops) at 1. eapply F_event; try eassumption. constructor.
      + eapply (own_next w i _ _ _ _ (FUp n s) (FDown (n_disk n') (close (snd (run_lops ops s))))); try eassumption; [split; assumption | |].
        { unfold fnext, next_world, is_at. cbn. rewrite !put_same. auto. }
        rewrite <- (app_nil_r ops) at 1. eapply F_stop; try eassumption. constructor.
      + eapply (own_next w i _ _ _ _ (FUp n s) (FDown (fold_left disk_apply p (n_disk n)) (close (snd (run_lops ops s))))); try eassumption; [split; assumption | |].
        { unfold fnext, next_world, is_at. cbn. rewrite !put_same. auto. }
        rewrite <- (app_nil_r ops) at 1. eapply F_crash; try eassumption. constructor.
      + eapply (own_next w i _ _ _ _ (FDown d f) (FUp (start_node i (prm i) (found l d)) s)); try eassumption; [split; assumption | |].
        { unfold fnext, next_world, is_at. cbn. rewrite !put_same. auto. }
        eapply F_start; try eassumption. constructor.
  Qed.

  (** where the conditions hold, server and files are in step *)
  Lemma own_in_step w : own_life w -> stores_okay servers w -> forall i, In i (ids servers) ->
    exists x y, is_at w i x /\ in_step x y.
  Proof.
    intros H Ok i Hi. destruct (H i Hi) as (d & x & E & El & A & F).
    destruct (flife_life _ _ _ _ _ _ F (Down d)) as (y & _ & Iy & _).
    { split; [reflexivity|]. split; [right; split; [reflexivity|exact El]|]. rewrite El. apply small_empty. }
    { cbn [to_come]. rewrite El. eapply down_again; [apply (Ok i Hi)|]. eapply down_ops. exact F. }
    exists x, y. split; assumption.
  Qed.
  Lemma ops_prefix a b : forall mx c l, ops_ok mx c l (a ++ b) -> ops_ok mx c l a.
  Proof. induction a as [|o a IH]; intros mx c l H; cbn [app ops_ok] in *; [exact I|]. destruct H. split; eauto. Qed.
  Lemma ops_opened os z : forall mx c l, ops_ok mx c l (os ++ [LReopen z]) -> z <> 0%Z /\ is_int32 z.
  Proof.
    induction os as [|o os IH]; intros mx c l H; cbn [app ops_ok] in H.
    - destruct H as [[H _] _]. exact H.
    - destruct H as [_ H]. eapply IH. exact H.
  Qed.
  Lemma okay_before w w' : fstep servers prm w w' -> stores_okay servers w' -> stores_okay servers w.
  Proof.
    intros S Ok j Hj. assert (X: exists i ops, fw_ops w' = put (fw_ops w) i (fw_ops w i ++ ops)) by (inversion S; subst; eexists _, _; reflexivity).
    destruct X as (i & ops & E). specialize (Ok j Hj). rewrite E in Ok. unfold put in Ok.
    destruct (j =? i)%Z eqn:Q; [|exact Ok]. assert (j = i) by lia. subst. eapply ops_prefix. exact Ok.
  Qed.

  Lemma freach_reach w : freach servers prm w0 w -> stores_okay servers w -> reach servers prm (fw_world w0) (fw_world w).
  Proof.
    induction 1 as [|w w' R IH S]; intros Ok; [constructor|].
    pose proof (okay_before w w' S Ok) as Okw. specialize (IH Okw). eapply Reach_S; [exact IH|].
    inversion S; subst; unfold fnext; cbn [fw_world].
    - eapply W_event; eassumption.
    - eapply W_stop; eassumption.
    - eapply W_crash; eassumption.
    - assert (El: found l d = d).
      { destruct (own_in_step w (freach_own w R) Okw i H) as (x & y & A & Iy).
        destruct x as [n t|d' f']; destruct A as [A1 A2]; rewrite H0 in A1; [discriminate|]. injection A1 as <-. rewrite H1 in A2. injection A2 as <-.
        destruct y as [|d'']; [contradiction|]. destruct Iy as (_ & Df & Sm).
        assert (Hz: z <> 0%Z /\ is_int32 z).
        { specialize (Ok i H). unfold fnext in Ok. cbn [fw_ops] in Ok. rewrite put_same in Ok.
          exact (ops_opened _ _ _ _ _ Ok). }
        destruct Hz as [Hz Hz32]. destruct (open_either d f z Df Sm Hz Hz32) as (s' & E & HR & _).
        rewrite H2 in E. injection E as <-. assert (dk_log d = l) as <-; [|apply found_same].
        eapply P_Torn.answers_one; [apply R_answers; exact HR|exact H3|]. destruct Sm as (_ & S1 & _). unfold a_next, two64. lia. }
      rewrite El. apply W_start; assumption.
  Qed.
End Files.

(** Every run of a cluster on files is a run of the cluster on indexed logs,
    and every store answers as its server's log. *)
Theorem C99_on_files_partial : forall servers prm w0 w,
  finitial servers w0 -> freach servers prm w0 w -> stores_okay servers w ->
  reach servers prm (fw_world w0) (fw_world w) /\
  forall i, In i (ids servers) ->
    match w_sys (fw_world w) i, fw_files w i with
    | Up n, Open s => answers_all s (n_log n)
    | Down d, Closed f => forall z, z <> 0%Z -> is_int32 z -> exists s, open_store f z = (Ok tt, s) /\ answers_all s (dk_log d)
    | _, _ => False
    end.
Proof.
  intros servers prm w0 w I0 R Ok. split; [eapply freach_reach; eassumption|]. intros i Hi.
  destruct (own_in_step servers prm w0 w (freach_own servers prm w0 I0 w R) Ok i Hi) as (x & y & A & Iy).
  destruct x as [n s|d f]; destruct A as [-> ->].
  - destruct y as [m|]; [|contradiction]. destruct Iy as [_ HR]. apply R_agree. exact HR.
  - destruct y as [|d']; [contradiction|]. destruct Iy as (_ & Df & Sm). intros z Hz Hz32.
    destruct (open_either d f z Df Sm Hz Hz32) as (s & E & HR & _). exists s. split; [exact E|apply R_agree; exact HR].
Qed.
Print Assumptions C99_on_files_partial.

(** C36 and the part of C38 that needs no further rules, on files *)
Theorem C99_log_matching_partial : forall servers prm w0 w, cluster_okay servers -> no_snapshots prm ->
  finitial servers w0 -> freach servers prm w0 w -> stores_okay servers w ->
  forall i j k e f, In i (ids servers) -> In j (ids servers) ->
  a_get (log_of (fw_world w) i) k = Some e -> a_get (log_of (fw_world w) j) k = Some f -> ev_term e = ev_term f ->
  agree k (log_of (fw_world w) i) (log_of (fw_world w) j).
Proof.
  intros servers prm w0 w HC HS I0 R Ok. apply (C36_log_matching_partial servers prm (fw_world w0)); try assumption; [apply I0|].
  apply (C99_on_files_partial servers prm w0 w I0 R Ok).
Qed.
Theorem C99_same_entry_partial : forall servers prm w0 w, cluster_okay servers -> no_snapshots prm ->
  finitial servers w0 -> freach servers prm w0 w -> stores_okay servers w ->
  forall i j k e f, applied servers (fw_world w) i k e -> applied servers (fw_world w) j k f -> ev_term e = ev_term f -> e = f.
Proof.
  intros servers prm w0 w HC HS I0 R Ok. apply (C38_same_term_same_entry_partial servers prm (fw_world w0)); try assumption; [apply I0|].
  apply (C99_on_files_partial servers prm w0 w I0 R Ok).
Qed.
Print Assumptions C99_log_matching_partial.
Print Assumptions C99_same_entry_partial.

(** ** Concrete clusters on files *)
Definition ops_of (l : list act) : list lop :=
  flat_map (fun a => match a with AAppend e => [LAppend e] | AWriteAt i e => [LWriteAt i e] | AApplyPack i es => [LApplyPack i 0 es] | ACompact k => [LCompact k] | _ => [] end) l.
Lemma ops_of_does l : does l (ops_of l).
Proof.
  induction l as [|a l IH]; [constructor|]. unfold ops_of. cbn [flat_map]. fold (ops_of l).
  destruct a; cbn [app]; try (apply D_other; [reflexivity|exact IH]); apply D_write; try exact IH; try reflexivity. exists 0. reflexivity.
Qed.
Definition folder_dec (a b : folder) : {a = b} + {a <> b}.
Proof. decide equality; apply list_eq_dec, Byte.byte_eq_dec. Defined.
(** the log in a folder, and whether it is all there is *)
Definition log_in (f : folder) : alog :=
  let s := snd (open_store f (-1)) in mkAL (s_start s) (c_buf (s_cache s)).
Definition log_all (f : folder) : bool :=
  smallb (log_in f) && (if folder_dec f (disk_of (log_in f)) then true else if folder_dec f empty_folder then true else false).
Lemma log_in_ok f : log_all f = true -> exists s, open_store f (-1) = (Ok tt, s) /\ answers_as s (log_in f).
Proof.
  unfold log_all. intros H. apply andb_prop in H. destruct H as [H1 H2]. apply smallb_ok in H1.
  destruct (folder_dec f (disk_of (log_in f))) as [E|_].
  - destruct (open_answers _ (-1) H1) as (s & E1 & A); [lia | unfold is_int32; lia |]. rewrite <- E in E1. exists s. auto.
  - destruct (folder_dec f empty_folder) as [->|]; [|discriminate].
    destruct (open_fresh (-1)) as (s & E & HR & _); [lia | unfold is_int32; lia |]. exists s. split; [exact E|].
    apply R_answers. exact HR.
Qed.

Section FRun.
  Variable servers : list srv_config.
  Variable prm : Z -> params.
  Definition fevent (w : fworld) (i : Z) (e : event) : fworld :=
    match w_sys (fw_world w) i, fw_files w i with
    | Up n, Open s =>
        let '(r, n', l) := run_event e n in
        if goes_on r then fnext w i (Up n') [mkObs e l (answer_of r)] (Open (snd (run_lops (ops_of l) s))) (ops_of l)
        else fnext w i (Down (n_disk n')) [mkObs e l None] (Closed (close (snd (run_lops (ops_of l) s)))) (ops_of l)
    | _, _ => w
    end.
  Definition run_f (w : fworld) (c : kcmd) : fworld :=
    match c with
    | KStart i =>
        match w_sys (fw_world w) i, fw_files w i with
        | Down d, Closed f =>
            if memb servers i && log_all f
            then fnext w i (Up (start_node i (prm i) (found (log_in f) d))) [] (Open (snd (open_store f (-1)))) [LReopen (-1)] else w
        | _, _ => w
        end
    | KDo i e => if memb servers i && always e then fevent w i e else w
    | KDeliver k j m =>
        match pick (fw_world w) k j m with
        | Some (u, x, q) => if memb servers k && memb servers j then fevent w j (ERequest 0 q) else w
        | None => w
        end
    | KLate k j m =>
        match pick (fw_world w) k j m with
        | Some (u, x, q) =>
            if memb servers k && memb servers j then
              match answer_to q (w_hist (fw_world w) j) with Some r => fevent w k (ERpc 0 u x q (Some r)) | None => w end
            else w
        | None => w
        end
    | KCrash i e c =>
        if memb servers i && always e then
          match w_sys (fw_world w) i, fw_files w i with
          | Up n, Open s =>
              let '(_, _, l) := run_event e n in let p := firstn c l in
              fnext w i (Down (fold_left disk_apply p (n_disk n))) [mkObs e p None] (Closed (close (snd (run_lops (ops_of p) s)))) (ops_of p)
          | _, _ => w
          end
        else w
    | _ => w
    end.
  Lemma fevent_reach w0 w i e : freach servers prm w0 w -> In i (ids servers) -> possible servers (fw_world w) i e -> freach servers prm w0 (fevent w i e).
  Proof.
    intros R Hi P. unfold fevent. destruct (w_sys (fw_world w) i) as [n|d] eqn:Es; [|exact R]. destruct (fw_files w i) as [s|f] eqn:Ef; [|exact R].
    destruct (run_event e n) as [[r n'] l] eqn:Er. destruct (goes_on r) eqn:Eg; (eapply FReach_S; [exact R|]).
    - eapply FW_event; try eassumption. apply ops_of_does.
    - eapply FW_stop; try eassumption. apply ops_of_does.
  Qed.
  Lemma run_f_reach w0 w c : freach servers prm w0 w -> freach servers prm w0 (run_f w c).
  Proof.
    intros R. destruct c as [i|i e|k j m|k j m|k j m|i e c|i data|k j m c|k j m]; cbn [run_f]; try exact R.
    - destruct (w_sys (fw_world w) i) as [n|d] eqn:Es; [exact R|]. destruct (fw_files w i) as [s|f] eqn:Ef; [exact R|].
      destruct (memb servers i) eqn:Em; [|exact R]. destruct (log_all f) eqn:Ea; [|exact R]. cbn [andb].
      destruct (log_in_ok f Ea) as (s & E & A). rewrite E. cbn [snd]. eapply FReach_S; [exact R|].
      eapply FW_start; try eassumption. apply (memb_in servers prm), Em.
    - destruct (memb servers i) eqn:Em; [|exact R]. destruct (always e) eqn:Ea; [|exact R]. cbn [andb].
      apply fevent_reach; [exact R | apply (memb_in servers prm), Em | apply (always_ok servers), Ea].
    - destruct (pick (fw_world w) k j m) as [[[u x] q]|] eqn:Ep; [|exact R]. destruct (memb servers k) eqn:Ek; [|exact R]. destruct (memb servers j) eqn:Ej; [|exact R]. cbn [andb].
      destruct (pick_sent prm (fw_world w) k j m u x q Ep) as [P1 P2].
      apply fevent_reach; [exact R | apply (memb_in servers prm), Ej|]. left. exists k, u, x. split; [apply (memb_in servers prm), Ek|]. split; assumption.
    - destruct (memb servers i) eqn:Em; [|exact R]. destruct (always e) eqn:Ea; [|exact R]. cbn [andb].
      destruct (w_sys (fw_world w) i) as [n|d] eqn:Es; [|exact R]. destruct (fw_files w i) as [s|f] eqn:Ef; [|exact R].
      destruct (run_event e n) as [[r n'] l] eqn:Er. eapply FReach_S; [exact R|]. cbv zeta.
      eapply (FW_crash servers prm w i n s e r n' (firstn c l) (skipn c l)); try eassumption.
      + apply (memb_in servers prm), Em.
      + apply (always_ok servers), Ea.
      + rewrite firstn_skipn. exact Er.
      + apply ops_of_does.
    - destruct (pick (fw_world w) k j m) as [[[u x] q]|] eqn:Ep; [|exact R]. destruct (memb servers k) eqn:Ek; [|exact R]. destruct (memb servers j) eqn:Ej; [|exact R]. cbn [andb].
      destruct (pick_sent prm (fw_world w) k j m u x q Ep) as [P1 P2]. destruct (answer_to q (w_hist (fw_world w) j)) as [r|] eqn:Ea; [|exact R].
      apply fevent_reach; [exact R | apply (memb_in servers prm), Ek|]. split; [exact P1|]. rewrite P2. split; [apply (memb_in servers prm), Ej | apply answer_to_in, Ea].
  Qed.
  Lemma run_fs_reach w0 cs : forall w, freach servers prm w0 w -> freach servers prm w0 (fold_left run_f cs w).
  Proof. induction cs as [|c cs IH]; intros w R; cbn [fold_left]; [exact R|]. apply IH, run_f_reach, R. Qed.
End FRun.

Definition ex_fworld : fworld := mkFW ex_world (fun _ => Closed empty_folder) (fun _ => []).
Definition ex_frun (cs : list kcmd) : fworld := fold_left (run_f ex_servers (fun _ => ex_prm)) cs ex_fworld.
Lemma ex_finitial : finitial ex_servers ex_fworld.
Proof. split; [exact ex_initial|]. intros i. split; reflexivity. Qed.
Lemma ex_freach cs : freach ex_servers (fun _ => ex_prm) ex_fworld (ex_frun cs).
Proof. apply run_fs_reach. constructor. Qed.
Definition rpc (k j : Z) : list kcmd := [KDeliver k j 0; KLate k j 0].

(** server 1 is elected and the entry with its configuration is replicated;
    it appends [lost], which no other server receives; server 2 is elected,
    appends [kept] and sends it to both; server 1 is killed between two events
    and started again, and both apply index 2 *)
Definition overwrite (lost kept : list byte) : list kcmd :=
  ([KStart 1; KStart 2; KStart 3; KDo 1 EElection] ++ rpc 1 2 ++ rpc 1 2 ++ rpc 1 3 ++ rpc 1 3 ++
   [KDo 1 ECommit; KDo 1 (EHeartbeat 2)] ++ rpc 1 2 ++ [KDo 2 ECommit; KDo 1 (EReplicate 0 lost)] ++
   [KDo 2 EElection] ++ rpc 2 3 ++ rpc 2 1 ++ rpc 2 3 ++ [KDo 2 (EReplicate 0 kept)] ++ rpc 2 1 ++ rpc 2 3 ++
   [KCrash 1 EElection 0; KStart 1; KDo 2 (EHeartbeat 1)] ++ rpc 2 1 ++ rpc 2 1 ++ [KDo 2 ECommit; KDo 1 ECommit; KDo 1 ECommit])%Z.
Lemma applied_fw (w : fworld) i k e : memb ex_servers i = true -> In (k, e) (commits (w_acts (fw_world w) i)) -> applied ex_servers (fw_world w) i k e.
Proof.
  intros Hi H. split; [apply (memb_in ex_servers (fun _ => ex_prm)), Hi|]. induction (w_acts (fw_world w) i) as [|a l IH]; [destruct H|].
  destruct a; try (right; apply IH; exact H). destruct H as [H|H]; [inversion H; left; reflexivity | right; apply IH, H].
Qed.

(** C38's theorem about entries of one term does not hold of servers on files:
    two servers that never lose a file apply different entries of the same term
    at the same index, after one of them is killed between two events. *)
Theorem C99_same_entry_refuted : exists servers prm w0 w i j k e f,
  cluster_okay servers /\ no_snapshots prm /\ finitial servers w0 /\ freach servers prm w0 w /\
  applied servers (fw_world w) i k e /\ applied servers (fw_world w) j k f /\ ev_term e = ev_term f /\ ev_data e <> ev_data f.
Proof.
  exists ex_servers, (fun _ => ex_prm), ex_fworld, (ex_frun (overwrite [x61; x62; x63] [x64])), 1%Z, 2%Z, 2, (mkEV 2 app_log [x64; x62; x63]), (mkEV 2 app_log [x64]).
  split; [exact ex_okay|]. split; [exact ex_nosnap|]. split; [exact ex_finitial|]. split; [apply ex_freach|].
  split; [apply applied_fw; vm_compute; auto|]. split; [apply applied_fw; vm_compute; auto|]. split; [reflexivity|discriminate].
Qed.
Print Assumptions C99_same_entry_refuted.

(** the hypotheses of the theorems are met by the same run with entries of one
    byte: a crash, a restart, an entry overwritten and the new one applied *)
Lemma okay_fw (w : fworld) : forallb (fun i => ops_okb 1 1 a_empty (fw_ops w i)) (ids ex_servers) = true -> stores_okay ex_servers w.
Proof. intros H i Hi. apply ops_okb_ok. exact (proj1 (forallb_forall _ _) H i Hi). Qed.
Example C99_on_files_example : exists w, cluster_okay ex_servers /\ no_snapshots (fun _ => ex_prm) /\
  finitial ex_servers ex_fworld /\ freach ex_servers (fun _ => ex_prm) ex_fworld w /\ stores_okay ex_servers w /\
  applied ex_servers (fw_world w) 1 2 (mkEV 2 app_log [x64]) /\ applied ex_servers (fw_world w) 2 2 (mkEV 2 app_log [x64]) /\
  In (LWriteAt 2 (mkEV 2 app_log [x64])) (fw_ops w 1) /\ In (LAppend (mkEV 1 app_log [x61])) (fw_ops w 1) /\
  length (filter (fun o => match o with LReopen _ => true | _ => false end) (fw_ops w 1)) = 2%nat.
Proof.
  exists (ex_frun (overwrite [x61] [x64])).
  split; [exact ex_okay|]. split; [exact ex_nosnap|]. split; [exact ex_finitial|]. split; [apply ex_freach|].
  split; [apply okay_fw; vm_compute; reflexivity|].
  split; [apply applied_fw; vm_compute; auto|]. split; [apply applied_fw; vm_compute; auto|].
  split; [vm_compute; auto 8|]. split; [vm_compute; auto 8|]. vm_compute; reflexivity.
Qed.
