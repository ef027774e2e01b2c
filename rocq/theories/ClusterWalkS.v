(** * ClusterWalkS: which configurations snapshots carry when nobody changes the membership *)

From Verif Require Import Base Buffer BufferSpec BufferProofs Codec CodecSpec CodecProofs Msg FsLogStore FsLogSpec Alog
  Raft P_Config RaftQuiet RaftWalk WalkAll RaftTrace NodeSpec NodeFacts Cluster ClusterElect.
Local Open Scope N_scope.

(** ** What can be read back from the bytes of a configuration or a snapshot *)
Lemma le_mod8 : forall n, le 8 n = le 8 (n mod (256 ^ N.of_nat 8)).
Proof. intros n. apply le_mod. Qed.
Definition cut_cfg (c : cluster_config) : cluster_config :=
  mkCfg (cc_log_idx c mod (256 ^ N.of_nat 8)) (cc_prev_log_idx c mod (256 ^ N.of_nat 8)) (cc_servers c).
Lemma cut_cfg_bytes : forall c, cfg_bytes c = cfg_bytes (cut_cfg c).
Proof. intros c. unfold cfg_bytes, cut_cfg. cbn [cc_log_idx cc_prev_log_idx cc_servers]. rewrite <- !le_mod. reflexivity. Qed.
Lemma cut_cfg_ok : forall c, Forall srv_ok (cc_servers c) -> cfg_ok (cut_cfg c).
Proof. intros c H. split; [apply ulong_mod|]. split; [apply ulong_mod|]. exact H. Qed.
Lemma parse_cfg_cut : forall c c', Forall srv_ok (cc_servers c) -> lenN (cfg_bytes c) < two31 -> parse_cfg (cfg_bytes c) = Ok c' -> c' = cut_cfg c.
Proof.
  intros c c' H L E. rewrite cut_cfg_bytes in E, L. unfold parse_cfg, parse in E. rewrite buffer_of_ok in E by exact L. cbn [res_bind] in E.
  pose proof (cfg_deserialize_ok [] (cut_cfg c) [] (cut_cfg_ok c H)) as D. rewrite !app_nil_r in D. cbn [app] in D. rewrite D in E by exact L.
  cbn [fst] in E. inversion E. reflexivity.
Qed.
Definition cut_snp (s : snapshot) : snapshot :=
  mkSnp (sn_last_log_idx s mod (256 ^ N.of_nat 8)) (sn_last_log_term s mod (256 ^ N.of_nat 8)) (sn_size s mod (256 ^ N.of_nat 8)) (cut_cfg (sn_config s)).
Lemma cut_snp_bytes : forall s o d x, sync_bytes s o d x = sync_bytes (cut_snp s) (o mod (256 ^ N.of_nat 8)) d x.
Proof.
  intros s o d x. unfold sync_bytes, snp_bytes, cut_snp. cbn [sn_last_log_idx sn_last_log_term sn_size sn_config]. rewrite <- !le_mod, <- cut_cfg_bytes. reflexivity.
Qed.
Lemma parse_sync_cut : forall s o d x v, Forall srv_ok (cc_servers (sn_config s)) -> parse_sync (sync_bytes s o d x) = Ok v -> sn_config (sv_snp v) = cut_cfg (sn_config s).
Proof.
  intros s o d x v H E. rewrite cut_snp_bytes in E. unfold parse_sync, parse in E.
  set (o' := o mod (256 ^ N.of_nat 8)) in E. assert (Ho : is_ulong o') by apply ulong_mod.
  destruct (N.lt_ge_cases (lenN (sync_bytes (cut_snp s) o' d x)) two31) as [L|L].
  - rewrite buffer_of_ok in E by exact L. cbn [res_bind] in E.
    assert (O : snp_ok (cut_snp s)). { split; [apply ulong_mod|]. split; [apply ulong_mod|]. split; [apply ulong_mod|]. apply cut_cfg_ok, H. }
    rewrite (sync_deserialize_ok junk0 (cut_snp s) o' d x [] O Ho) in E by exact L. cbn [res_bind] in E.
    destruct (stream_out _) as [y| |]; try discriminate. cbn [res_bind] in E. inversion E. reflexivity.
  - unfold buffer_of, alloc in E. change 2147483648 with two31 in E. replace (two31 <=? lenN (sync_bytes (cut_snp s) o' d x)) with true in E by lia. discriminate.
Qed.

Section WalkS.
  Variable servers : list srv_config.
  Hypothesis HC : cluster_okay servers.

  (** the configuration of the cluster; it has no predecessor *)
  Definition gcfg (c : cluster_config) : Prop := cc_servers c = servers /\ cc_prev_log_idx c = 0.
  Definition gent (e : entry_val) : Prop := ev_type e = conf_log -> exists c, ev_data e = cfg_bytes c /\ gcfg c.
  Definition gsnp (o : option snapshot) : Prop := match o with Some s => gcfg (sn_config s) | None => True end.
  Definition gsnp_req (q : req) : Prop := forall c, snp_conf q c -> gcfg c.
  Definition ga (a : act) : Prop :=
    match a with
    | ASend _ true q => rq_type q = prevote_request
    | ASend _ false q => (rq_type q = install_snapshot_request -> gsnp_req q) /\ (rq_type q = append_entries_request -> Forall gent (rq_entries q))
    | ARetryLater _ _ | AApplyPack _ _ => False
    | ACreateSnapshot s | ASnapshotMade s _ | AApplySnapshot s => gcfg (sn_config s)
    | ASaveConfig c => gcfg c
    | AAppend e | AWriteAt _ e => gent e
    | _ => True
    end.
  Definition gdisk (d : disk) : Prop :=
    gcfg (dk_config d) /\ Forall gent (al_ents (dk_log d)) /\ 1 <= al_start (dk_log d) /\ gsnp (dk_snp d).
  Definition gpeer (p : peer) : Prop := gsnp (option_map fst (p_sync p)).
  Record gnode (n : node) : Prop := mkG {
    g_cfg : gcfg (n_config n);
    g_disk : gdisk (n_disk n);
    g_snp : gsnp (n_snp n);
    g_peers : Forall gpeer (n_peers n);
    g_steps : n_steps n = 0%Z
  }.
  Definition R : rel := fun n l n' => gnode n -> gnode n' /\ Forall ga l.
  Instance R_pre : preorder R.
  Proof.
    split; unfold R; [intros; split; [assumption | constructor]|].
    intros n l n1 l1 n2 H1 H2 G. destruct (H1 G) as [G1 A1]. destruct (H2 G1) as [G2 A2]. split; [exact G2 | apply Forall_app; split; assumption].
  Qed.
  Lemma from_g : forall A (m : M A) n, (gnode n -> ht R yes m n) -> ht R yes m n.
  Proof. intros A m n H r n' l E. split; [|intros; exact I]. intros G. apply (H G _ _ _ E). exact G. Qed.

  Lemma gent_parse : forall e c, gent e -> ev_type e = conf_log -> parse_cfg (ev_data e) = Ok c -> gcfg c.
  Proof.
    intros e c G T P. destruct (G T) as (c0 & E & S & Z). rewrite E in P. destruct HC as (_ & _ & O & L).
    apply parse_cfg_cut in P; [subst c|rewrite S; exact O | rewrite cfg_bytes_len, S; exact L]. split; [exact S|]. cbn. rewrite Z. reflexivity.
  Qed.
  Lemma gsync : forall s o d x v, gcfg (sn_config s) -> parse_sync (sync_bytes s o d x) = Ok v -> gcfg (sn_config (sv_snp v)).
  Proof.
    intros s o d x v [S Z] P. apply parse_sync_cut in P; [|rewrite S; apply HC]. rewrite P. split; [exact S|]. cbn. rewrite Z. reflexivity.
  Qed.
  Lemma Forall_part : forall A (P : A -> Prop) k l, Forall P l -> Forall P (firstn k l) /\ Forall P (skipn k l).
  Proof. intros A P k l H. rewrite <- (firstn_skipn k l) in H. apply Forall_app in H. exact H. Qed.
  Lemma gdisk_act : forall d a, gdisk d -> ga a -> gdisk (disk_apply d a).
  Proof.
    intros d a (D1 & D2 & D3 & D4) A. destruct a; try (split; [exact D1|]; split; [exact D2|]; split; [exact D3 | exact D4]); cbn [ga] in A; try contradiction; unfold gdisk; cbn [disk_apply dk_config dk_log dk_snp a_replace a_compact al_ents al_start].
    - split; [exact A|]. split; [exact D2|]. split; [exact D3 | exact D4].
    - split; [exact D1|]. split; [|split; [exact D3 | exact D4]]. apply Forall_app. split; [apply Forall_part, D2 | constructor; [exact A | constructor]].
    - split; [exact D1|]. split; [|split; [exact D3 | exact D4]]. apply Forall_app. split; [apply Forall_part, D2 | constructor; [exact A | constructor]].
    - split; [exact D1|]. split; [|split; [lia | exact D4]]. apply Forall_part, D2.
    - split; [exact D1|]. split; [exact D2|]. split; [exact D3 | exact A].
    - split; [exact D1|]. split; [exact D2|]. split; [exact D3 | exact A].
  Qed.
  Lemma gdisk_acts : forall l d, gdisk d -> Forall ga l -> gdisk (fold_left disk_apply l d).
  Proof. induction l as [|a l IH]; intros d D H; [exact D|]. inversion H; subst. cbn [fold_left]. apply IH; [apply gdisk_act; assumption | assumption]. Qed.

  (** ** Single changes *)
  Lemma r_act : forall a n, ga a -> R n [a] (set_disk (disk_apply (n_disk n) a) n).
  Proof. intros a n A [G1 G2 G3 G4 G5]. split; [|constructor; [exact A | constructor]]. split; try assumption. apply gdisk_act; assumption. Qed.
  Lemma r_exit : forall c n, R n [AExit c] n.
  Proof. intros c n G. split; [exact G | constructor; [exact I | constructor]]. Qed.
  Lemma r_set : forall n n', n_config n' = n_config n -> n_disk n' = n_disk n -> n_snp n' = n_snp n -> n_peers n' = n_peers n -> n_steps n' = n_steps n -> R n [] n'.
  Proof. intros n n' H1 H2 H3 H4 H5 [G1 G2 G3 G4 G5]. split; [|constructor]. split; congruence. Qed.
  Lemma r_peers : forall n ps, (Forall gpeer (n_peers n) -> Forall gpeer ps) -> R n [] (set_peers ps n).
  Proof. intros n ps H [G1 G2 G3 G4 G5]. split; [|constructor]. split; try assumption. apply H, G4. Qed.
  Lemma r_upd : forall r f n, (forall p, gpeer p -> gpeer (f p)) -> R n [] (upd_peer r f n).
  Proof.
    intros [id|] f n H; [|apply r_set; reflexivity]. apply r_peers. intros G. unfold upd_peers. apply Forall_forall. intros p Hp. apply in_map_iff in Hp.
    destruct Hp as (p0 & E & Hin). rewrite Forall_forall in G. specialize (G p0 Hin). destruct (p_id p0 =? id)%Z; subst p; auto.
  Qed.
  Lemma r_map : forall f n, (forall p, gpeer p -> gpeer (f p)) -> R n [] (set_peers (map f (n_peers n)) n).
  Proof. intros f n H. apply r_peers. intros G. apply Forall_forall. intros p Hp. apply in_map_iff in Hp. destruct Hp as (p0 & <- & Hin). rewrite Forall_forall in G. apply H, G, Hin. Qed.
  Lemma r_rm : forall id n, R n [] (set_peers (rm_peer id (n_peers n)) n).
  Proof. intros id n. apply r_peers. intros G. apply Forall_forall. intros p Hp. apply filter_In in Hp. rewrite Forall_forall in G. apply G, Hp. Qed.
  Lemma r_insert : forall x p n, gpeer p -> R n [] (match find_peer x (n_peers n) with None => set_peers (n_peers n ++ [p]) n | Some _ => n end).
  Proof. intros x p n H. destruct (find_peer x (n_peers n)); [apply r_set; reflexivity|]. apply r_peers. intros G. apply Forall_app. split; [exact G | constructor; [exact H | constructor]]. Qed.
  Lemma r_cfg : forall c n, gcfg c -> R n [] (set_config c n).
  Proof. intros c n H [G1 G2 G3 G4 G5]. split; [|constructor]. split; assumption. Qed.
  Lemma r_snp : forall s n, gcfg (sn_config s) -> R n [] (set_snp (Some s) n).
  Proof. intros c n H [G1 G2 G3 G4 G5]. split; [|constructor]. split; assumption. Qed.
  Lemma app_good : forall t d, gent (mkEV t app_log d).
  Proof. intros t d T. discriminate. Qed.
  Lemma conf_good : forall t c, gcfg c -> gent (conf_entry t c).
  Proof. intros t c H _. exists c. split; [reflexivity | exact H]. Qed.

  Ltac gact := cbn [ga]; first [exact I | reflexivity | assumption | split; intros ?; discriminate | apply app_good | apply conf_good; assumption].
  Ltac gp := intros; unfold gpeer in *; repeat match goal with |- context [if ?x then _ else _] => destruct x end; first [assumption | exact I].
  Ltac one := first [ apply r_set; reflexivity | apply r_exit | apply r_act; gact | apply r_upd; gp | apply r_map; gp | apply r_rm | apply r_insert; exact I
                    | apply r_cfg; assumption | apply r_snp; assumption ].
  Ltac w := wall one.

  (** ** Requests to peers *)
  Definition gq (q : req) : Prop := (rq_type q = install_snapshot_request -> gsnp_req q) /\ (rq_type q = append_entries_request -> Forall gent (rq_entries q)).
  Lemma find_gpeer : forall n id p, gnode n -> find_peer id (n_peers n) = Some p -> gpeer p.
  Proof. intros n id p G H. apply find_some in H. destruct H as [H _]. pose proof (g_peers n G) as F. rewrite Forall_forall in F. apply F, H. Qed.

  Lemma g_snpreq : forall id a b c n, gnode n -> ht R (fun q _ => gq q) (create_sync_snapshot_req (PPeer id) a b c) n.
  Proof.
    intros id a b c n G. unfold create_sync_snapshot_req, the_peer. apply ht_assoc. apply ht_bget. cbn [get_peer].
    destruct (find_peer id (n_peers n)) as [p|] eqn:Ep; [|apply ht_bub; exact _]. apply ht_bret. apply ht_bget. cbv beta zeta.
    assert (Gp := find_gpeer n id p G Ep).
    eapply (ht_bind R _ _ (fun cur _ => gcfg (sn_config (fst cur)))).
    - match goal with |- ht _ _ (if ?x then _ else _) _ => destruct x end.
      + destruct (n_snp n) as [s|] eqn:Es; [|apply ht_ub; exact _]. assert (Gs : gcfg (sn_config s)). { pose proof (g_snp n G) as X. rewrite Es in X. exact X. }
        destruct (_ <? _); [apply ht_exit, r_exit|]. destruct (_ <? _); [apply ht_exit, r_exit|].
        apply ht_bmodify; [exact _ | apply r_upd; intros; exact Gs|]. apply ht_ret; [exact _|]. exact Gs.
      + unfold gpeer in Gp. destruct (p_sync p) as [[s o]|]; [|apply ht_ub; exact _]. apply ht_ret; [exact _ | exact Gp].
    - intros [s o] n1 l1 _ _ Gs. cbn [fst] in Gs. destruct (two31 <=? _); [apply ht_throw; exact _|]. destruct (_ <? _); [apply ht_exit, r_exit|].
      apply ht_ret; [exact _|]. split; [|discriminate]. intros _ cc (e & v & E1 & E2 & ->). cbn [rq_entries] in E1. inversion E1; subst e. cbn [ev_data] in E2.
      eapply gsync; eassumption.
  Qed.
  Lemma g_aereq : forall id n, gnode n -> ht R (fun q _ => gq q) (create_append_entries_req (PPeer id)) n.
  Proof.
    intros id n G. unfold create_append_entries_req, the_peer. apply ht_assoc. apply ht_bget. cbn [get_peer].
    destruct (find_peer id (n_peers n)) as [p|] eqn:Ep; [|apply ht_bub; exact _]. apply ht_bret. apply ht_bget. cbv beta zeta.
    eapply ht_seq; [exact _ | destruct (p_next p =? 0); cbn [when]; w|]. intros u n1 l1 _ R1. destruct (R1 G) as [G1 _].
    destruct (_ <=? _); [apply ht_exit, r_exit|]. destruct (_ && _); [apply g_snpreq, G1|].
    eapply ht_seq; [exact _ | unfold term_for_log; open_prims; w|]. intros t n2 l2 _ R2. destruct (R2 G1) as [G2 _].
    eapply (ht_bind R _ _ (fun es _ => Forall gent es)).
    - destruct (_ <=? _); [apply ht_ret; [exact _ | constructor]|]. unfold log_entries_. apply ht_bget. cbv beta.
      repeat match goal with |- ht _ _ (if ?x then _ else _) _ => destruct x end; try (apply ht_ub; exact _); try (apply ht_throw; exact _).
      apply ht_ret; [exact _|]. unfold a_range. apply Forall_part, Forall_part. apply (g_disk n2 G2).
    - intros es n3 l3 _ _ He. apply ht_ret; [exact _|]. split; [discriminate | intros _; exact He].
  Qed.
  Lemma W_rat : forall id n, ht R yes (request_append_entries_to id) n.
  Proof.
    intros id n. apply from_g. intros G. unfold request_append_entries_to, the_peer. apply ht_assoc. apply ht_bget.
    destruct (get_peer (PPeer id) n) as [p|]; [|apply ht_bub; exact _]. apply ht_bret. destruct (p_busy p); [apply ht_ret; [exact _ | exact I]|].
    eapply ht_seq; [exact _ | w|]. intros u n1 l1 _ R1. destruct (R1 G) as [G1 _].
    eapply ht_bind; [exact _ | apply g_aereq, G1|]. intros q n2 l2 _ _ Gq. unfold send_req, the_peer. w.
  Qed.
  Lemma W_com : forall i n, ht R yes (commit i) n.
  Proof. pose proof W_rat. intros. unfold commit. open_prims. w. Qed.
  Lemma W_rae : forall n, ht R yes request_append_entries n.
  Proof. pose proof W_rat. pose proof W_com. intros. unfold request_append_entries. open_prims. w. Qed.
  Lemma W_bel : forall n, ht R yes become_leader n.
  Proof.
    pose proof W_rae as W. intros n. unfold become_leader. open_prims.
    repeat (lazymatch goal with |- ht _ _ (bind (get n_config) _) _ => fail | _ => first [hyp_leaf | wstep one] end).
    match goal with |- ht _ _ _ ?x => set (m := x) end. apply ht_bget. apply from_g. intros G. assert (X : forall nx, cc_log_idx (n_config m) = 0 -> gcfg (cfg_set_log_idx nx (n_config m))).
    { intros nx Z. destruct (g_cfg _ G) as [S _]. split; [exact S | exact Z]. }
    destruct (cc_log_idx (n_config m) =? 0) eqn:Z; cbn [when].
    - specialize (fun nx => X nx ltac:(lia)). wall ltac:(first [one | apply r_cfg, X | apply r_act; cbn [ga]; apply conf_good, X]).
    - w.
  Qed.
  Lemma W_rec : forall c, gcfg c -> forall n, ht R yes (reconfigure c) n.
  Proof. intros c Gc n. unfold reconfigure. open_prims. w. Qed.
  Lemma W_tfl : forall i n, ht R yes (term_for_log i) n.
  Proof. intros. unfold term_for_log. open_prims. w. Qed.

  (** ** Handlers *)
  Lemma W_cli : forall t es, Forall (fun e => ev_type e <> conf_log) es -> forall n, ht R yes (cli_append t es) n.
  Proof.
    intros t es. induction es as [|e es IH]; intros F n; cbn [cli_append]; [w|]. inversion F; subst. specialize (IH H2).
    assert (X : gent (mkEV t (ev_type e) (ev_data e))) by (intros T; contradiction). open_prims. w.
  Qed.
  Lemma skip_part : forall es i n, Forall gent es -> ht R (fun x _ => Forall gent (snd x)) (skip_matching i es) n.
  Proof.
    induction es as [|e es IH]; intros i n F; cbn [skip_matching]; [apply ht_ret; [exact _ | constructor]|]. inversion F; subst.
    unfold next_slot_. apply ht_bget. destruct (i <? _); [|apply ht_ret; [exact _ | exact F]].
    eapply ht_seq; [exact _ | open_prims; w|]. intros t n1 l1 _ _. destruct (t =? ev_term e); [apply IH; assumption | apply ht_ret; [exact _ | exact F]].
  Qed.
  Lemma over_part : forall es i n, Forall gent es -> ht R (fun x _ => Forall gent x) (overwrite i es) n.
  Proof.
    induction es as [|e es IH]; intros i n F; cbn [overwrite]; [apply ht_ret; [exact _ | constructor]|]. inversion F; subst.
    unfold next_slot_. apply ht_bget. destruct (i <? _); [|apply ht_ret; [exact _ | exact F]]. open_prims.
    eapply ht_seq; [exact _ | w|]. intros o n1 l1 _ _. eapply ht_seq; [exact _ | w|]. intros old n2 l2 _ _.
    do 5 (eapply ht_seq; [exact _ | w|]; intros ? ? ? _ _). apply IH; assumption.
  Qed.
  Lemma W_rest : forall es, Forall gent es -> forall n, ht R yes (append_rest es) n.
  Proof. induction es as [|e es IH]; intros F n; cbn [append_rest]; [w|]. inversion F; subst. specialize (IH H2). open_prims. w. Qed.
  Lemma W_bef : forall n, ht R yes become_follower n.
  Proof. intros n. unfold become_follower. open_prims. w. Qed.
  Lemma W_upt : forall t n, ht R yes (update_term t) n.
  Proof. pose proof W_bef. intros. unfold update_term. open_prims. w. Qed.
  Lemma W_aer : forall q, Forall gent (rq_entries q) -> forall n, ht R yes (handle_append_entries q) n.
  Proof.
    pose proof W_bef. pose proof W_tfl. pose proof W_com. intros q F n. unfold handle_append_entries. apply ht_bget.
    eapply ht_seq; [exact _ | open_prims; w|]. intros u n1 l1 _ _. unfold next_slot_. apply ht_bget. cbv zeta.
    eapply ht_seq; [exact _ | w|]. intros ok n2 l2 _ _. destruct (_ || _); [apply ht_ret; [exact _ | exact I]|].
    eapply ht_bind; [exact _ | apply skip_part, F|]. intros r n3 l3 _ _ F3.
    eapply ht_bind; [exact _ | apply over_part, F3|]. intros rest n4 l4 _ _ F4.
    eapply ht_seq; [exact _ | apply W_rest, F4|]. intros u2 n5 l5 _ _. w.
  Qed.
  Lemma W_vrq : forall q n, ht R yes (handle_vote_req q) n.
  Proof. intros. unfold handle_vote_req. open_prims. w. Qed.
  Lemma W_pre : forall q n, ht R yes (handle_prevote_req q) n.
  Proof. intros. unfold handle_prevote_req. open_prims. w. Qed.
  Lemma W_isl : forall now n, ht R yes (is_leader now) n.
  Proof. intros. unfold is_leader. open_prims. w. Qed.
  Lemma W_clr : forall now q, client_req q -> forall n, ht R yes (handle_cli_req now q) n.
  Proof.
    pose proof W_isl. pose proof W_rae. intros now q [_ F] n. assert (F2 : Forall (fun e => ev_type e <> conf_log) (rq_entries q)) by (apply Forall_forall; exact F).
    assert (X : forall t n, ht R yes (cli_append t (rq_entries q)) n) by (intros; apply W_cli, F2). unfold handle_cli_req. open_prims. repeat first [apply X | hyp_leaf | wstep one].
  Qed.
  Lemma W_ins : forall q, gsnp_req q -> forall n, ht R yes (handle_install_snapshot_req q) n.
  Proof.
    pose proof W_bef. intros q Gq n. unfold handle_install_snapshot_req. apply ht_bget.
    eapply ht_seq; [exact _ | open_prims; w|]. intros u n1 l1 _ _. cbv zeta. destruct (_ && _); [apply ht_ret; [exact _ | exact I]|].
    destruct (rq_entries q) as [|e [|e2 es]] eqn:Eq; try (apply ht_ret; [exact _ | exact I]). destruct (negb _); [apply ht_ret; [exact _ | exact I]|].
    apply ht_blift; [exact _|]. intros s Es. assert (Gc : gcfg (sn_config (sv_snp s))) by (apply Gq; exists e, s; auto).
    apply ht_bget. destruct (_ <=? _); [apply ht_ret; [exact _ | exact I]|].
    assert (X : forall m, ht R yes (handle_snapshot_sync_req s) m).
    { intros m. pose proof (W_rec _ Gc) as Wr. unfold handle_snapshot_sync_req. open_prims.
      repeat (lazymatch goal with |- ht _ _ (bind (get n_config) _) _ => apply ht_bget; apply from_g; intros G | _ => first [hyp_leaf | wstep ltac:(first [one | apply r_act; apply (g_cfg _ G) | apply r_snp; apply (g_cfg _ G)])] end). }
    w.
  Qed.
  Lemma find_conf_top : forall k i c n, gnode n -> gcfg c -> find_conf k i c n = (ROk c, n, []).
  Proof.
    intros [|k] i c n G [_ Z]; [reflexivity|]. cbn [find_conf]. unfold start_index_. rewrite (bind_cons _ _ _ _ _ (al_start (n_log n))) by reflexivity.
    rewrite Z. destruct (g_disk n G) as (_ & _ & S & _). unfold n_log. replace (al_start (dk_log (n_disk n)) <=? 0) with false by lia.
    rewrite andb_false_r. reflexivity.
  Qed.
  Lemma W_sna : forall i n, ht R yes (snapshot_and_compact i) n.
  Proof.
    intros i n. apply from_g. intros G. unfold snapshot_and_compact. apply ht_bget. cbv zeta. destruct (_ || _); [apply ht_ret; [exact _ | exact I]|].
    destruct (_ && negb _); [|apply ht_ret; [exact _ | exact I]]. apply ht_catch; [exact _| |intros; w].
    apply ht_bmodify; [exact _ | apply r_set; reflexivity|].
    assert (G1 : gnode (set_snp_busy true n)). { destruct G. split; assumption. }
    eapply ht_beq; [exact _ | apply find_conf_top; [exact G1 | apply (g_cfg n G)] | apply p_refl|].
    unfold start_index_. apply ht_bget. destruct (g_cfg n G) as [S Z]. rewrite Z. cbn [N.ltb N.compare]. rewrite andb_false_r. cbn [andb].
    change (0 <? 0) with false. rewrite ?andb_false_r. cbn [andb].
    destruct (_ && _); [apply ht_bexit, r_exit|]. apply ht_bret. assert (Gc := g_cfg n G). open_prims. w.
  Qed.
  Lemma W_cst : forall n, ht R yes commit_step n.
  Proof.
    pose proof W_sna as Ws. intros n. unfold commit_step. apply ht_bget. destruct (_ && _); [|w]. apply ht_catch; [exact _| |intros; w]. cbv zeta.
    eapply ht_seq; [exact _ | w|]. intros u n1 l1 _ _. apply from_g. intros G1.
    eapply (ht_bind R _ _ (fun o _ => forall e, o = Some e -> gent e)).
    { unfold log_entry_at. apply ht_bget. destruct (_ <? _); [apply ht_throw; exact _|]. apply ht_ret; [exact _|]. intros e He. unfold a_get in He.
      destruct (_ <? _); [discriminate|]. apply nth_error_In in He. destruct (g_disk n1 G1) as (_ & F & _). rewrite Forall_forall in F. apply F, He. }
    intros o n2 l2 _ _ Ho. destruct o as [e|]; unfold deref; [|apply ht_bub; exact _]. apply ht_bret. specialize (Ho e eq_refl).
    eapply ht_seq; [exact _ | |intros; apply Ws]. destruct (beq (ev_type e) app_log); [w|]. destruct (beq (ev_type e) conf_log) eqn:Tc; [|w].
    apply ht_blift; [exact _|]. intros c Ec. assert (Gc : gcfg c) by (apply (gent_parse e c Ho); [apply Byte.byte_dec_bl, Tc | exact Ec]).
    pose proof (W_rec c Gc) as Wr. w.
  Qed.
  Lemma W_snc : forall s d ok, gcfg (sn_config s) -> forall n, ht R yes (on_snapshot_completed s d ok) n.
  Proof. intros s d ok Gs n. unfold on_snapshot_completed. open_prims. w. Qed.
  Lemma W_iss : forall r n, ht R yes (handle_install_snapshot_resp r) n.
  Proof.
    pose proof W_rat as W. intros r n. apply from_g. intros G. unfold handle_install_snapshot_resp. apply ht_bget.
    destruct (find_peer (rs_src r) (n_peers n)) as [p|] eqn:Ep; [|w]. assert (Gp := find_gpeer n _ p G Ep). unfold gpeer in Gp. open_prims.
    destruct (p_sync p) as [[s o]|] eqn:Es; wall ltac:(first [one | apply r_upd; intros; first [exact Gp | exact I]]).
  Qed.
  Lemma W_aes : forall r n, ht R yes (handle_append_entries_resp r) n.
  Proof. pose proof W_rat. pose proof W_com. intros. unfold handle_append_entries_resp. open_prims. w. Qed.
  Lemma W_vrs : forall r n, ht R yes (handle_voting_resp r) n.
  Proof. pose proof W_bel. intros. unfold handle_voting_resp. open_prims. w. Qed.
  Lemma W_per : forall now r n, ht R yes (handle_peer_resp now r) n.
  Proof. pose proof W_upt. pose proof W_iss. pose proof W_aes. pose proof W_vrs. intros. unfold handle_peer_resp. open_prims. w. Qed.
  Lemma W_rqv : forall n, ht R yes request_vote n.
  Proof. pose proof W_bel. pose proof W_tfl. intros. unfold request_vote. open_prims. w. Qed.
  Lemma W_bec : forall n, ht R yes become_candidate n.
  Proof. pose proof W_rqv. intros. unfold become_candidate. open_prims. w. Qed.
  Lemma W_rqp : forall n, ht R yes request_prevote n.
  Proof. pose proof W_bec. pose proof W_tfl. intros. unfold request_prevote. open_prims. w. Qed.
  Lemma W_prs : forall r n, ht R yes (handle_prevote_resp r) n.
  Proof. pose proof W_bec. intros. unfold handle_prevote_resp. open_prims. w. Qed.
  Lemma W_het : forall n, ht R yes handle_election_timeout n.
  Proof.
    pose proof W_bec. pose proof W_rqp. intros n. apply from_g. intros G. unfold handle_election_timeout.
    apply ht_bmodify; [exact _ | apply r_set; reflexivity|]. apply ht_bget. cbn [n_steps set_timer]. rewrite (g_steps n G). cbn [Z.ltb Z.compare]. open_prims. w.
  Qed.
  Lemma W_hbt : forall i n, ht R yes (handle_hb_timeout i) n.
  Proof. pose proof W_rat. intros. unfold handle_hb_timeout. open_prims. w. Qed.
  Lemma W_rep : forall now d n, ht R yes (replicate_log now d) n.
  Proof. pose proof W_isl. pose proof W_rae. intros. unfold replicate_log. open_prims. w. Qed.

  (** events of a cluster with fixed membership; what the messages carry *)
  Definition ge (e : event) : Prop :=
    match e with
    | ERequest _ q => (rq_type q = append_entries_request /\ Forall gent (rq_entries q)) \/ rq_type q = vote_request \/ rq_type q = prevote_request \/ client_req q \/
        (rq_type q = install_snapshot_request /\ gsnp_req q)
    | ERpc _ _ true q None => rq_type q = prevote_request
    | ERpc _ _ true q (Some r) => rs_type r = prevote_response
    | ESnapshot s _ _ => gcfg (sn_config s)
    | EElection | EHeartbeat _ | ECommit | EReplicate _ _ | EAppend _ _ | ERpc _ _ false _ _ => True
    | _ => False
    end.
  Lemma W_head : forall b t n, ht R yes (when b (update_term t ;;; s <- get n_steps ;; when (0 <? s)%Z (modify (set_steps 2)))) n.
  Proof.
    pose proof W_upt. intros b t n. destruct b; cbn [when]; [|w]. eapply ht_seq; [exact _ | w|]. intros u n1 l1 _ _. apply from_g. intros G.
    apply ht_bget. rewrite (g_steps n1 G). cbn [Z.ltb Z.compare when]. w.
  Qed.
  Lemma W_pro : forall now q n, ge (ERequest now q) -> ht R yes (process_req now q) n.
  Proof.
    pose proof W_upt. pose proof W_vrq. pose proof W_pre. intros now q n T. unfold process_req, handle_extended_msg. cbn in T. cbv zeta. eapply ht_seq; [exact _ | apply W_head|]. intros u n1 l1 _ _.
    destruct T as [[T F]|[T|[T|[T|[T F]]]]].
    - rewrite T. pose proof (W_aer q F). w; try discriminate.
    - rewrite T. w; try discriminate.
    - rewrite T. w; try discriminate.
    - pose proof (W_clr now q T). rewrite (proj1 T). w; try discriminate.
    - rewrite T. pose proof (W_ins q F). w; try discriminate.
  Qed.
  Theorem event_g : forall e n, ge e -> ht R yes (run_event e) n.
  Proof.
    pose proof W_het. pose proof W_hbt. pose proof W_cst. pose proof W_rep. pose proof W_prs. pose proof W_per. pose proof W_isl.
    intros e n F. destruct e as [| |now q|now uid ext q r| | |s d ok| | | |]; try contradiction F; cbn [run_event]; try (w; fail).
    - eapply ht_seq; [exact _ | apply W_pro, F|]. intros. w.
    - unfold rpc_done. destruct ext, r as [r|]; cbn in F.
      + unfold handle_ext_resp. rewrite F. w; try discriminate.
      + unfold handle_ext_resp_err. rewrite F. w; try discriminate.
      + w.
      + cbn [when]. w.
    - pose proof (W_snc s d ok F). w.
    - unfold append_entries. destruct logs as [|x logs]; [w|]. unfold send_msg_to_leader. open_prims. w.
      apply W_pro. right. right. right. left. split; [reflexivity|]. intros y Hy. cbn [api_req rq_entries] in Hy. apply in_map_iff in Hy. destruct Hy as (z & <- & _). discriminate.
  Qed.
End WalkS.
