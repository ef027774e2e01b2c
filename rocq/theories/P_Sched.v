(** * P_Sched: timers (C24, C63, C64) *)

From Coq Require Import List Arith Lia Bool.
From Verif Require Import Sched.
Import ListNotations.

(** the labels of no call of schedule / of cancel *)
Definition is_schedule (l : label) : bool := match l with Schedule _ => true | _ => false end.
Definition is_cancel (l : label) : bool := match l with CancelTimer => true | _ => false end.
Definition no_schedule (ls : list label) : Prop := Forall (fun l => is_schedule l = false) ls.
Definition no_cancel (ls : list label) : Prop := Forall (fun l => is_cancel l = false) ls.

Lemma exec_app : forall ls1 ls2 t, exec t (ls1 ++ ls2) = match exec t ls1 with Some t1 => exec t1 ls2 | None => None end.
Proof. induction ls1 as [|l ls1 IH]; intros ls2 t; cbn; [reflexivity|]. destruct (step t l); [apply IH | reflexivity]. Qed.
Lemma exec_ind_r : forall (Q : list label -> task -> Prop) t0, Q [] t0 ->
  (forall ls l t t', exec t0 ls = Some t -> Q ls t -> step t l = Some t' -> Q (ls ++ [l]) t') ->
  forall ls t, exec t0 ls = Some t -> Q ls t.
Proof.
  intros Q t0 H0 HS ls. induction ls as [|l ls IH] using rev_ind; intros t E; [inversion E; subst; exact H0|].
  rewrite exec_app in E. destruct (exec t0 ls) as [t1|] eqn:E1; [|discriminate]. cbn in E. destruct (step t1 l) eqn:E2; [|discriminate]. inversion E; subst.
  eapply HS; [exact E1 | apply IH; reflexivity | exact E2].
Qed.
Lemma set_wait_length : forall ws i st, length (set_wait ws i st) = length ws.
Proof. induction ws; intros [|i] st; cbn; auto. Qed.
Lemma set_wait_same : forall ws i st w, nth_error ws i = Some w -> nth_error (set_wait ws i st) i = Some (mkWait (w_due w) st).
Proof. induction ws as [|w0 ws IH]; intros [|i] st w H; cbn in *; try discriminate; [inversion H; reflexivity | apply IH, H]. Qed.
Lemma set_wait_other : forall ws i j st, j <> i -> nth_error (set_wait ws i st) j = nth_error ws j.
Proof. induction ws as [|w0 ws IH]; intros [|i] [|j] st H; cbn; try reflexivity; try congruence. apply IH. congruence. Qed.
Lemma set_wait_state : forall ws i st j w', nth_error (set_wait ws i st) j = Some w' ->
  exists w, nth_error ws j = Some w /\ w_due w' = w_due w /\ (if j =? i then w_state w' = st else w' = w).
Proof.
  intros ws i st j w' H. destruct (Nat.eq_dec j i) as [->|Hn].
  - rewrite Nat.eqb_refl. assert (L : i < length ws) by (rewrite <- (set_wait_length ws i st); apply nth_error_Some; congruence).
    destruct (nth_error ws i) as [w|] eqn:E; [|apply nth_error_None in E; lia]. rewrite (set_wait_same _ _ _ _ E) in H. inversion H; subst. eauto.
  - rewrite set_wait_other in H by exact Hn. apply Nat.eqb_neq in Hn. rewrite Hn. eauto.
Qed.
Lemma map_abort_state : forall ws j w', nth_error (map abort ws) j = Some w' ->
  exists w, nth_error ws j = Some w /\ w_due w' = w_due w /\ (w' = w \/ (w_state w = Pending /\ w_state w' = Aborted)).
Proof.
  intros ws j w' H. rewrite nth_error_map in H. destruct (nth_error ws j) as [w|]; [|discriminate]. inversion H; subst. exists w. unfold abort.
  destruct (w_state w) eqn:E; cbn; auto.
Qed.

(** what a step does to the waits: the old ones change their state as allowed, at most one is new *)
Definition becomes (c : bool) (l : label) (j : nat) (a b : wait_state) : Prop :=
  a = b \/ (a = Pending /\ b = Aborted) \/ (l = Expire j /\ a = Pending /\ b = Due) \/ (l = Take j /\ a = Due /\ b = (if c then Dropped else Checked)) \/
  (l = Take j /\ a = Aborted /\ b = Dropped) \/ (l = Start j /\ a = Checked /\ b = Started).
Lemma becomes_same : forall c l j a, becomes c l j a a.
Proof. left. reflexivity. Qed.
Lemma step_waits : forall t l t', step t l = Some t' ->
  (forall j w', nth_error (t_waits t') j = Some w' ->
     (exists w, nth_error (t_waits t) j = Some w /\ w_due w' = w_due w /\ becomes (t_cancelled t) l j (w_state w) (w_state w')) \/
     (l = AsyncWait /\ j = length (t_waits t) /\ t_owner t = Sched_set (w_due w') /\ w_state w' = Pending)) /\
  length (t_waits t') = length (t_waits t) + (match l with AsyncWait => 1 | _ => 0 end) /\
  t_starts t' = t_starts t ++ (match l with Start i => [(t_now t, i)] | _ => [] end) /\
  (forall i, l = Start i -> exists due, nth_error (t_waits t) i = Some (mkWait due Checked) /\ nth_error (t_waits t') i = Some (mkWait due Started)) /\
  t_now t' = t_now t + (match l with Tick => 1 | _ => 0 end).
Proof.
  intros [now c ctx ws o st] l t' H. destruct l as [ms| | | | | |i|i|i]; cbn [step] in H.
  - destruct o; try discriminate. inversion H; subst. cbn. rewrite app_nil_r. repeat split; try lia; [|discriminate]. intros j w' Hj. left. exists w'. auto using becomes_same.
  - destruct o; try discriminate. inversion H; subst. cbn. rewrite app_nil_r, map_length. repeat split; try lia; [|discriminate]. intros j w' Hj. left.
    destruct (map_abort_state _ _ _ Hj) as (w & A & B & [C|[C D]]); exists w; (split; [exact A|]); (split; [exact B|]); unfold becomes; [subst; auto | rewrite C, D; auto].
  - destruct o; try discriminate. inversion H; subst. cbn. rewrite app_nil_r, app_length. cbn. repeat split; try lia; [|discriminate]. intros j w' Hj.
    destruct (Nat.lt_ge_cases j (length ws)) as [L|L]; [rewrite nth_error_app1 in Hj by exact L; left; exists w'; auto using becomes_same|].
    rewrite nth_error_app2 in Hj by exact L. right. destruct (j - length ws) as [|k] eqn:E; [|destruct k; discriminate]. inversion Hj; subst. cbn. repeat split; lia.
  - destruct o; try discriminate. inversion H; subst. cbn. rewrite app_nil_r. split; [|split; [destruct ctx; rewrite ?map_length; lia|]; split; [reflexivity|]; split; [discriminate | lia]].
    intros j w' Hj. left. destruct ctx; [|exists w'; auto using becomes_same].
    destruct (map_abort_state _ _ _ Hj) as (w & A & B & [C|[C D]]); exists w; (split; [exact A|]); (split; [exact B|]); unfold becomes; [subst; auto | rewrite C, D; auto].
  - destruct o; try discriminate. inversion H; subst. cbn. rewrite app_nil_r. repeat split; try lia; [|discriminate]. intros j w' Hj. left. exists w'. auto using becomes_same.
  - inversion H; subst. cbn. rewrite app_nil_r. repeat split; try lia; [|discriminate]. intros j w' Hj. left. exists w'. auto using becomes_same.
  - destruct (nth_error ws i) as [[due []]|] eqn:Ei; try discriminate. destruct (due <=? now); [|discriminate]. inversion H; subst. cbn. rewrite app_nil_r, set_wait_length. repeat split; try lia; [|discriminate].
    intros j w' Hj. left. destruct (set_wait_state _ _ _ _ _ Hj) as (w & A & B & C). exists w. split; [exact A|]. split; [exact B|].
    destruct (Nat.eqb_spec j i) as [->|Hn]; [|subst; apply becomes_same]. rewrite Ei in A. inversion A; subst. rewrite C. unfold becomes. cbn. auto 10.
  - destruct (nth_error ws i) as [[due []]|] eqn:Ei; try discriminate; inversion H; subst; cbn; rewrite app_nil_r, set_wait_length; repeat split; try lia; try discriminate;
    intros j w' Hj; left; destruct (set_wait_state _ _ _ _ _ Hj) as (w & A & B & C); exists w; (split; [exact A|]); (split; [exact B|]);
    (destruct (Nat.eqb_spec j i) as [->|Hn]; [|subst; apply becomes_same]); rewrite Ei in A; inversion A; subst; rewrite C; unfold becomes; cbn; auto 10.
  - destruct (nth_error ws i) as [[due []]|] eqn:Ei; try discriminate. inversion H; subst. cbn. rewrite set_wait_length. repeat split; try lia.
    + intros j w' Hj. left. destruct (set_wait_state _ _ _ _ _ Hj) as (w & A & B & C). exists w. split; [exact A|]. split; [exact B|].
      destruct (Nat.eqb_spec j i) as [->|Hn]; [|subst; apply becomes_same]. rewrite Ei in A. inversion A; subst. rewrite C. unfold becomes. cbn. auto 10.
    + intros k X. inversion X; subst. exists due. split; [exact Ei | apply (set_wait_same _ _ _ _ Ei)].
Qed.
Ltac brk H := repeat match type of H with match ?x with _ => _ end = _ => destruct x; try discriminate H end.
Lemma step_cancelled : forall t l t', step t l = Some t' -> is_schedule l = false -> t_cancelled t = true -> t_cancelled t' = true.
Proof.
  intros [now c ctx ws o st] l t' H Hl Hc. cbn in Hc. subst c. destruct l as [ms| | | | | |i|i|i]; cbn in *; try discriminate;
  brk H; inversion H; reflexivity.
Qed.
Lemma step_owner : forall t l t', step t l = Some t' -> is_schedule l = false -> t_owner t = Outside \/ t_owner t = Cancel_timer -> t_owner t' = Outside \/ t_owner t' = Cancel_timer.
Proof.
  intros [now c ctx ws o st] l t' H Hl Hc. cbn in Hc. destruct l as [ms| | | | | |i|i|i]; cbn in *; try discriminate;
  destruct Hc; subst o; try discriminate; brk H; inversion H; cbn; auto.
Qed.

(** ** C24 *)

(** Cancel has returned, the action is not scheduled again, and it starts: a worker had read the
    flag before. *)
Theorem C24_race_refuted : forall now, exists before after t t', exec (new_task now) (before ++ [CancelTimer; SetCancelled]) = Some t /\ t_starts t = [] /\
  no_schedule after /\ exec t after = Some t' /\ t_starts t' <> [].
Proof.
  intros now. exists [Schedule 0; SetExpiry; AsyncWait; Expire 0; Take 0], [Start 0]. eexists. eexists.
  split; [cbn; rewrite Nat.add_0_r, Nat.leb_refl; reflexivity|]. split; [reflexivity|]. split; [repeat constructor|]. split; [reflexivity | discriminate].
Qed.
Lemma cancelled_stays : forall t ls t', t_owner t = Outside -> t_cancelled t = true -> no_schedule ls -> exec t ls = Some t' ->
  exists more, t_starts t' = t_starts t ++ more /\ NoDup (map snd more) /\
    forall time i, In (time, i) more -> exists due, nth_error (t_waits t) i = Some (mkWait due Checked).
Proof.
  intros t ls t' Ho Hc Hn H. revert Hn.
  enough (G : no_schedule ls -> (t_owner t' = Outside \/ t_owner t' = Cancel_timer) /\ t_cancelled t' = true /\ length (t_waits t') = length (t_waits t) /\
    (forall i w', nth_error (t_waits t') i = Some w' -> exists w, nth_error (t_waits t) i = Some w /\ (w_state w' = Checked -> w_state w = Checked)) /\
    exists more, t_starts t' = t_starts t ++ more /\ NoDup (map snd more) /\
      (forall time i, In (time, i) more -> exists due, nth_error (t_waits t) i = Some (mkWait due Checked)) /\
      (forall i, In i (map snd more) -> exists due, nth_error (t_waits t') i = Some (mkWait due Started))).
  { intros Hn. destruct (G Hn) as (_ & _ & _ & _ & more & A & B & C & _). eauto. }
  revert ls t' H. apply (exec_ind_r (fun ls t' => no_schedule ls -> (t_owner t' = Outside \/ t_owner t' = Cancel_timer) /\ t_cancelled t' = true /\ length (t_waits t') = length (t_waits t) /\
    (forall i w', nth_error (t_waits t') i = Some w' -> exists w, nth_error (t_waits t) i = Some w /\ (w_state w' = Checked -> w_state w = Checked)) /\
    exists more, t_starts t' = t_starts t ++ more /\ NoDup (map snd more) /\
      (forall time i, In (time, i) more -> exists due, nth_error (t_waits t) i = Some (mkWait due Checked)) /\
      (forall i, In i (map snd more) -> exists due, nth_error (t_waits t') i = Some (mkWait due Started)))).
  - intros _. split; [auto|]. split; [exact Hc|]. split; [reflexivity|]. split; [eauto|]. exists []. rewrite app_nil_r. split; [reflexivity|]. split; [constructor|]. split; intros; contradiction.
  - intros ls l t1 t2 _ IH St Hn. apply Forall_app in Hn. destruct Hn as [Hn Hl]. inversion Hl as [|? ? Hl1 _]; subst.
    destruct (IH Hn) as (O1 & C1 & L1 & W1 & more & M1 & M2 & M3 & M4). destruct (step_waits _ _ _ St) as (S1 & S2 & S3 & S4 & _).
    assert (Nw : l <> AsyncWait). { intros ->. destruct t1 as [now c ctx ws o st]. cbn in O1, St. destruct O1; subst o; discriminate. }
    split; [apply (step_owner _ _ _ St Hl1 O1)|]. split; [apply (step_cancelled _ _ _ St Hl1 C1)|]. split; [rewrite S2, L1; destruct l; try congruence; lia|].
    split.
    { intros i w' Hi. destruct (S1 i w' Hi) as [(w & A & B & K)|(A & _)]; [|congruence]. destruct (W1 i w A) as (w0 & D1 & D2). exists w0. split; [exact D1|]. intros E. apply D2.
      unfold becomes in K. rewrite C1 in K. destruct K as [K|[K|[K|[K|[K|K]]]]]; decompose [and] K; congruence. }
    rewrite S3, M1, <- app_assoc. eexists. split; [reflexivity|].
    assert (Keep : forall i, In i (map snd more) -> exists due, nth_error (t_waits t2) i = Some (mkWait due Started)).
    { intros i Hi. destruct (M4 i Hi) as [due A]. assert (Li : i < length (t_waits t2)) by (rewrite S2; enough (i < length (t_waits t1)) by lia; apply nth_error_Some; congruence).
      apply nth_error_Some in Li. destruct (nth_error (t_waits t2) i) as [w'|] eqn:Ei; [|congruence]. destruct (S1 i w' Ei) as [(w & B & D & K)|(B & _)]; [|congruence].
      rewrite A in B. inversion B; subst. cbn in K, D. exists (w_due w'). destruct w' as [d' s']. cbn in *. f_equal. f_equal.
      unfold becomes in K. destruct K as [K|[K|[K|[K|[K|K]]]]]; decompose [and] K; congruence. }
    destruct l as [ms| | | | | |i|i|i]; rewrite ?app_nil_r; try (split; [exact M2|]; split; [exact M3 | exact Keep]).
    destruct (S4 i eq_refl) as (due & A & B). destruct (W1 i _ A) as ([d0 s0] & D1 & D2). cbn in D2. rewrite (D2 eq_refl) in D1.
    rewrite map_app. cbn. split; [|split].
    + apply NoDup_rev in M2. rewrite <- (rev_involutive (map snd more ++ [i])). apply NoDup_rev. rewrite rev_app_distr. cbn. constructor; [|exact M2]. rewrite <- in_rev. intros X.
      destruct (M4 i X) as [d1 Y]. rewrite A in Y. discriminate.
    + intros time j Hj. apply in_app_or in Hj. destruct Hj as [Hj|[Hj|[]]]; [apply (M3 _ _ Hj)|]. inversion Hj; subst. eauto.
    + intros j Hj. apply in_app_or in Hj. destruct Hj as [Hj|[Hj|[]]]; [apply (Keep _ Hj)|]. subst. eauto.
Qed.
(** Once cancel has returned ([SetCancelled] is its last part), the action is started, before it is
    scheduled again, only by workers that had read the flag before, and only once by each.
    Missing: those.  In particular it is not started at all if there is no such worker. *)
Theorem C24_cancel_partial : forall now before t ls t', exec (new_task now) (before ++ [SetCancelled]) = Some t -> no_schedule ls -> exec t ls = Some t' ->
  exists more, t_starts t' = t_starts t ++ more /\ NoDup (map snd more) /\
    forall time i, In (time, i) more -> exists due, nth_error (t_waits t) i = Some (mkWait due Checked).
Proof.
  intros now before t ls t' H Hn H'. rewrite exec_app in H. destruct (exec (new_task now) before) as [t0|] eqn:E; [|discriminate].
  destruct t0 as [n0 c ctx ws o st]. cbn in H. destruct o; try discriminate. inversion H; subst. eapply cancelled_stays; [reflexivity | reflexivity | exact Hn | exact H'].
Qed.

(** ** C63: the delay *)

(** the [i]-th call of schedule in [ls] (from 0), plus its delay, is not after [d] *)
Definition asked_by (now0 : nat) (ls : list label) (i d : nat) : Prop :=
  exists ls1 ms ls2 t1, ls = ls1 ++ Schedule ms :: ls2 /\ length (filter is_schedule ls1) = i /\ exec (new_task now0) ls1 = Some t1 /\ t_now t1 + ms <= d.
Lemma asked_more : forall now0 ls i d l d', asked_by now0 ls i d -> d <= d' -> asked_by now0 (ls ++ [l]) i d'.
Proof.
  intros now0 ls i d l d' (ls1 & ms & ls2 & t1 & -> & B & C & D) Hd. exists ls1, ms, (ls2 ++ [l]), t1. rewrite <- app_assoc. cbn. repeat split; try assumption. lia.
Qed.
Record inv (now0 : nat) (ls : list label) (t : task) : Prop := {
  I_count : length (filter is_schedule ls) = length (t_waits t) + match t_owner t with Sched_reset _ | Sched_set _ => 1 | _ => 0 end;
  I_wait : forall i w, nth_error (t_waits t) i = Some w -> asked_by now0 ls i (w_due w);
  I_reset : forall ms, t_owner t = Sched_reset ms -> asked_by now0 ls (length (t_waits t)) (t_now t + ms);
  I_set : forall due, t_owner t = Sched_set due -> asked_by now0 ls (length (t_waits t)) due;
  I_flag : match t_owner t with Sched_reset _ | Sched_set _ => t_cancelled t = false | _ => True end;
  I_due : forall i w, nth_error (t_waits t) i = Some w -> w_state w = Due \/ w_state w = Checked -> w_due w <= t_now t;
  I_starts : NoDup (map snd (t_starts t));
  I_started : forall time i, In (time, i) (t_starts t) -> exists due, nth_error (t_waits t) i = Some (mkWait due Started) /\ due <= time
}.
Lemma inv_exec : forall now0 ls t, exec (new_task now0) ls = Some t -> inv now0 ls t.
Proof.
  intros now0. apply exec_ind_r.
  - constructor; cbn; try discriminate; try contradiction; try reflexivity; try (intros [|i] w H; discriminate); auto. constructor.
  - intros ls l t t' Ex V St. destruct (step_waits _ _ _ St) as (S1 & S2 & S3 & S4 & S5). destruct V as [Vc Vw Vr Vs Vf Vd Vst Vsd].
    assert (Wait : forall i w', nth_error (t_waits t') i = Some w' -> asked_by now0 (ls ++ [l]) i (w_due w')).
    { intros i w' Hi. destruct (S1 i w' Hi) as [(w & A & B & _)|(A & B & C & _)]; [rewrite B; apply (asked_more _ _ _ (w_due w)); auto|]. subst i. apply (asked_more _ _ _ (w_due w')); auto. }
    assert (Dued : forall i w, nth_error (t_waits t') i = Some w -> w_state w = Due \/ w_state w = Checked -> w_due w <= t_now t').
    { intros i w' Hi Hs. destruct (S1 i w' Hi) as [(w & A & B & K)|(A & B & C & D)]; [|rewrite D in Hs; destruct Hs; discriminate]. rewrite B. specialize (Vd i w A).
      assert (t_now t <= t_now t') by (rewrite S5; destruct l; lia).
      assert (w_state w = Due \/ w_state w = Checked \/ l = Expire i) as [X|[X|X]].
      { unfold becomes in K. destruct K as [K|[K|[K|[K|[K|K]]]]]; decompose [and] K; intuition congruence. }
      - specialize (Vd (or_introl X)). lia.
      - specialize (Vd (or_intror X)). lia.
      - subst l. destruct t as [now c ctx ws o st]. cbn in *. rewrite A in St. destruct w as [due ws0]. cbn in *. destruct ws0; try discriminate. destruct (Nat.leb_spec due now); [|discriminate]. lia. }
    assert (Kept : forall time i, In (time, i) (t_starts t) -> exists due, nth_error (t_waits t') i = Some (mkWait due Started) /\ due <= time).
    { intros time i Hi. destruct (Vsd _ _ Hi) as (due & A & Hle). assert (Li : i < length (t_waits t')) by (rewrite S2; enough (i < length (t_waits t)) by lia; apply nth_error_Some; congruence).
      apply nth_error_Some in Li. destruct (nth_error (t_waits t') i) as [w'|] eqn:Ei; [|congruence]. destruct (S1 i w' Ei) as [(w & B & D & K)|(_ & B & _)].
      2:{ assert (i < length (t_waits t)) by (apply nth_error_Some; congruence). lia. }
      rewrite A in B. inversion B; subst. cbn in K, D. exists due. split; [|exact Hle]. destruct w' as [d' s']. cbn in *. f_equal. subst d'. f_equal.
      unfold becomes in K. destruct K as [K|[K|[K|[K|[K|K]]]]]; decompose [and] K; congruence. }
    assert (Starts : NoDup (map snd (t_starts t')) /\ forall time i, In (time, i) (t_starts t') -> exists due, nth_error (t_waits t') i = Some (mkWait due Started) /\ due <= time).
    { rewrite S3. destruct l as [ms| | | | | |i|i|i]; rewrite ?app_nil_r; try (split; [exact Vst | exact Kept]).
      destruct (S4 i eq_refl) as (due & A & B). rewrite map_app. cbn. split.
      - apply NoDup_rev in Vst. rewrite <- (rev_involutive (map snd (t_starts t) ++ [i])). apply NoDup_rev. rewrite rev_app_distr. cbn. constructor; [|exact Vst]. rewrite <- in_rev. intros X.
        apply in_map_iff in X. destruct X as ([tm k] & E & Hin). cbn in E. subst k. destruct (Vsd _ _ Hin) as (d1 & Y & _). rewrite A in Y. discriminate.
      - intros time j Hj. apply in_app_or in Hj. destruct Hj as [Hj|[Hj|[]]]; [apply (Kept _ _ Hj)|]. inversion Hj; subst. exists due. split; [exact B|]. apply (Vd j _ A). right. reflexivity. }
    destruct Starts as [St1 St2].
    assert (Cnt : length (filter is_schedule (ls ++ [l])) = length (t_waits t) + match t_owner t with Sched_reset _ | Sched_set _ => 1 | _ => 0 end + (if is_schedule l then 1 else 0)).
    { rewrite filter_app, app_length, Vc. cbn. destruct (is_schedule l); cbn; lia. }
    constructor; try assumption; clear Wait Dued St1 St2 Kept.
    + rewrite Cnt, S2. clear Cnt Vw Vr Vs S1 S3 S4 S5 Vd Vst Vsd Vc Vf. destruct t as [now c ctx ws o st]. destruct l as [ms| | | | | |i|i|i]; cbn in *; brk St; inversion St; subst; cbn; lia.
    + clear Cnt S1 S3 S4 Vd Vst Vsd Vf Vs. intros ms Ho. destruct l as [ms'| | | | | |i|i|i].
      * destruct t as [now c ctx ws o st]. cbn in *. brk St. inversion St; subst. cbn in *. inversion Ho; subst. exists ls, ms, [], (mkTask now c ctx ws Outside st). cbn in *. repeat split; auto; lia.
      * destruct t as [now c ctx ws o st]. cbn in *. brk St. inversion St; subst. discriminate.
      * destruct t as [now c ctx ws o st]. cbn in *. brk St. inversion St; subst. discriminate.
      * destruct t as [now c ctx ws o st]. cbn in *. brk St. inversion St; subst. discriminate.
      * destruct t as [now c ctx ws o st]. cbn in *. brk St. inversion St; subst. discriminate.
      * destruct t as [now c ctx ws o st]. cbn in *. inversion St; subst. cbn in *. apply (asked_more _ _ _ (now + ms)); [apply Vr; exact Ho | lia].
      * rewrite S2, S5, !Nat.add_0_r. apply (asked_more _ _ _ (t_now t + ms)); [|lia]. apply Vr. rewrite <- Ho. destruct t as [now c ctx ws o st]. cbn in *. brk St; inversion St; reflexivity.
      * rewrite S2, S5, !Nat.add_0_r. apply (asked_more _ _ _ (t_now t + ms)); [|lia]. apply Vr. rewrite <- Ho. destruct t as [now c ctx ws o st]. cbn in *. brk St; inversion St; reflexivity.
      * rewrite S2, S5, !Nat.add_0_r. apply (asked_more _ _ _ (t_now t + ms)); [|lia]. apply Vr. rewrite <- Ho. destruct t as [now c ctx ws o st]. cbn in *. brk St; inversion St; reflexivity.
    + clear Cnt S1 S3 S4 Vd Vst Vsd Vf. intros due Ho. destruct l as [ms'| | | | | |i|i|i].
      * destruct t as [now c ctx ws o st]. cbn in *. brk St. inversion St; subst. discriminate.
      * destruct t as [now c ctx ws o st]. cbn in *. brk St. inversion St; subst. cbn in *. inversion Ho; subst. rewrite map_length. apply (asked_more _ _ _ (now + ms)); [apply Vr; reflexivity | lia].
      * destruct t as [now c ctx ws o st]. cbn in *. brk St. inversion St; subst. discriminate.
      * destruct t as [now c ctx ws o st]. cbn in *. brk St. inversion St; subst. discriminate.
      * destruct t as [now c ctx ws o st]. cbn in *. brk St. inversion St; subst. discriminate.
      * destruct t as [now c ctx ws o st]. cbn in *. inversion St; subst. cbn in *. apply (asked_more _ _ _ due); [apply Vs; exact Ho | lia].
      * rewrite S2, !Nat.add_0_r. apply (asked_more _ _ _ due); [|lia]. apply Vs. rewrite <- Ho. destruct t as [now c ctx ws o st]. cbn in *. brk St; inversion St; reflexivity.
      * rewrite S2, !Nat.add_0_r. apply (asked_more _ _ _ due); [|lia]. apply Vs. rewrite <- Ho. destruct t as [now c ctx ws o st]. cbn in *. brk St; inversion St; reflexivity.
      * rewrite S2, !Nat.add_0_r. apply (asked_more _ _ _ due); [|lia]. apply Vs. rewrite <- Ho. destruct t as [now c ctx ws o st]. cbn in *. brk St; inversion St; reflexivity.
    + clear Cnt Vw Vr Vs S1 S2 S3 S4 S5 Vd Vst Vsd Vc. destruct t as [now c ctx ws o st]. destruct l as [ms| | | | | |i|i|i]; cbn in *; brk St; inversion St; subst; cbn; auto.
Qed.

(** Cancelling and scheduling again: the action starts at once although the new delay has only
    begun (the handler of the old wait was queued, and schedule cleared the flag again). *)
Theorem C63_last_delay_refuted : forall now ms, 0 < ms -> exists before t t', exec (new_task now) (before ++ [CancelTimer; SetCancelled; Schedule ms; SetExpiry; AsyncWait]) = Some t /\
  t_starts t = [] /\ t_now t = now /\ exec t [Take 0; Start 0] = Some t' /\ t_starts t' = [(now, 0)].
Proof.
  intros now ms Hms. exists [Schedule 0; SetExpiry; AsyncWait; Expire 0]. eexists. eexists.
  split; [cbn; rewrite Nat.add_0_r, Nat.leb_refl; reflexivity|]. split; [reflexivity|]. split; [reflexivity|]. split; reflexivity.
Qed.
(** Every start belongs to a call of schedule of its own and does not come before that call's delay
    has passed.  Missing: the last call before it. *)
Theorem C63_own_delay_partial : forall now0 ls t, exec (new_task now0) ls = Some t ->
  NoDup (map snd (t_starts t)) /\ length (t_starts t) <= length (filter is_schedule ls) /\ forall time i, In (time, i) (t_starts t) -> asked_by now0 ls i time.
Proof.
  intros now0 ls t H. destruct (inv_exec _ _ _ H) as [Vc Vw Vr Vs Vf Vd Vst Vsd]. split; [exact Vst|]. split.
  - assert (length (t_starts t) <= length (t_waits t)); [|lia]. rewrite <- (map_length snd), <- (seq_length (length (t_waits t)) 0). apply NoDup_incl_length; [exact Vst|].
    intros i Hi. apply in_map_iff in Hi. destruct Hi as ([tm k] & E & Hin). cbn in E. subst k. destruct (Vsd _ _ Hin) as (d1 & Y & _). apply in_seq.
    assert (i < length (t_waits t)) by (apply nth_error_Some; congruence). lia.
  - intros time i Hi. destruct (Vsd _ _ Hi) as (due & A & B). destruct (Vw _ _ A) as (ls1 & ms & ls2 & t1 & X1 & X2 & X3 & X4). exists ls1, ms, ls2, t1. cbn in X4. repeat split; try assumption. lia.
Qed.
(** If no handler of an earlier call is queued or past its check when schedule sets the new expiry,
    then until the next call of schedule the action starts at most once, and not before the new
    delay.  Missing: the other case ([C63_last_delay_refuted]). *)
Theorem C63_last_delay_partial : forall t0 ms ls t', t_owner t0 = Sched_reset ms ->
  (forall w, In w (t_waits t0) -> w_state w <> Due /\ w_state w <> Checked) -> no_schedule ls -> exec t0 (SetExpiry :: ls) = Some t' ->
  exists more, t_starts t' = t_starts t0 ++ more /\ length more <= 1 /\ forall time i, In (time, i) more -> t_now t0 + ms <= time.
Proof.
  intros t0 ms ls t' Ho Hq Hn H. cbn [exec] in H. destruct (step t0 SetExpiry) as [t|] eqn:E0; [|discriminate].
  assert (Et : t = mkTask (t_now t0) (t_cancelled t0) (t_ctx t0) (map abort (t_waits t0)) (Sched_set (t_now t0 + ms)) (t_starts t0)).
  { destruct t0 as [now c ctx ws o st]. cbn in *. subst o. inversion E0. reflexivity. }
  assert (Old : forall i w, nth_error (t_waits t) i = Some w -> w_state w = Aborted \/ w_state w = Started \/ w_state w = Dropped).
  { intros i w Hi. subst t. cbn in Hi. rewrite nth_error_map in Hi. destruct (nth_error (t_waits t0) i) as [w0|] eqn:Ei; [|discriminate]. apply nth_error_In in Ei.
    destruct (Hq _ Ei) as [Q1 Q2]. inversion Hi; subst. unfold abort. destruct (w_state w0) eqn:Es; cbn; rewrite ?Es; auto; congruence. }
  set (due := t_now t0 + ms) in *. set (n0 := length (t_waits t)).
  assert (Ot : t_owner t = Sched_set due) by (subst t; reflexivity). assert (Es : t_starts t = t_starts t0) by (subst t; reflexivity). rewrite <- Es. clear E0 Et Hq.
  revert Hn.
  enough (G : no_schedule ls -> (t_owner t' = Sched_set due /\ length (t_waits t') = n0 \/ (t_owner t' = Outside \/ t_owner t' = Cancel_timer) /\ length (t_waits t') = n0 + 1) /\
    (forall i w, i < n0 -> nth_error (t_waits t') i = Some w -> w_state w = Aborted \/ w_state w = Started \/ w_state w = Dropped) /\
    (forall w, nth_error (t_waits t') n0 = Some w -> w_due w = due /\ (w_state w = Due \/ w_state w = Checked -> due <= t_now t')) /\
    exists more, t_starts t' = t_starts t ++ more /\ (more = [] \/ (exists time, more = [(time, n0)] /\ due <= time) /\ exists w, nth_error (t_waits t') n0 = Some w /\ w_state w = Started)).
  { intros Hn. destruct (G Hn) as (_ & _ & _ & more & A & B). exists more. split; [exact A|]. destruct B as [->|[(time & -> & B) _]]; cbn; (split; [lia|]).
    - intros ? ? [].
    - intros tm i [X|[]]. inversion X; subst. exact B. }
  revert ls t' H. apply (exec_ind_r (fun ls t' => no_schedule ls -> (t_owner t' = Sched_set due /\ length (t_waits t') = n0 \/ (t_owner t' = Outside \/ t_owner t' = Cancel_timer) /\ length (t_waits t') = n0 + 1) /\
    (forall i w, i < n0 -> nth_error (t_waits t') i = Some w -> w_state w = Aborted \/ w_state w = Started \/ w_state w = Dropped) /\
    (forall w, nth_error (t_waits t') n0 = Some w -> w_due w = due /\ (w_state w = Due \/ w_state w = Checked -> due <= t_now t')) /\
    exists more, t_starts t' = t_starts t ++ more /\ (more = [] \/ (exists time, more = [(time, n0)] /\ due <= time) /\ exists w, nth_error (t_waits t') n0 = Some w /\ w_state w = Started))).
  - intros _. split; [left; split; [exact Ot | reflexivity]|]. split; [intros i w _; apply Old|]. split.
    + intros w Hw. assert (n0 < length (t_waits t)) by (apply nth_error_Some; congruence). unfold n0 in *. lia.
    + exists []. rewrite app_nil_r. auto.
  - intros ls l t1 t2 _ IH St Hn. apply Forall_app in Hn. destruct Hn as [Hn Hl]. inversion Hl as [|? ? Hl1 _]; subst.
    destruct (IH Hn) as (O1 & W1 & N1 & more & M1 & M2). destruct (step_waits _ _ _ St) as (S1 & S2 & S3 & S4 & S5). clear IH Hl Hn.
    assert (Now : t_now t1 <= t_now t2) by (rewrite S5; destruct l; lia).
    assert (Own : t_owner t2 = Sched_set due /\ length (t_waits t2) = n0 \/ (t_owner t2 = Outside \/ t_owner t2 = Cancel_timer) /\ length (t_waits t2) = n0 + 1).
    { destruct O1 as [[O1 L1]|[O1 L1]].
      - destruct l as [ms'| | | | | |i|i|i]; try discriminate; rewrite S2, L1, ?Nat.add_0_r; destruct t1 as [now c ctx ws o st]; cbn in *; subst o; brk St; inversion St; subst; cbn; auto.
      - right. split; [apply (step_owner _ _ _ St Hl1 O1)|]. rewrite S2, L1. destruct l; try lia. destruct t1 as [now c ctx ws o st]. cbn in *. destruct O1; subst o; discriminate. }
    split; [exact Own|]. split; [|split].
    + intros i w' Hi Hw. destruct (S1 i w' Hw) as [(w & A & B & K)|(A & B & C & D)].
      * specialize (W1 i w Hi A). unfold becomes in K. destruct K as [K|[K|[K|[K|[K|K]]]]]; decompose [and] K; intuition congruence.
      * assert (n0 <= length (t_waits t1)) by (destruct O1 as [[_ ->]|[_ ->]]; lia). lia.
    + intros w' Hw. destruct (S1 n0 w' Hw) as [(w & A & B & K)|(A & B & C & D)].
      * destruct (N1 w A) as [D1 D2]. split; [congruence|]. intros Hs.
        assert (w_state w = Due \/ w_state w = Checked \/ l = Expire n0) as [X|[X|X]].
        { unfold becomes in K. destruct K as [K|[K|[K|[K|[K|K]]]]]; decompose [and] K; intuition congruence. }
        -- specialize (D2 (or_introl X)). lia.
        -- specialize (D2 (or_intror X)). lia.
        -- subst l. destruct t1 as [now c ctx ws o st]. cbn in *. rewrite A in St. destruct w as [d ws0]. cbn in *. destruct ws0; try discriminate. destruct (Nat.leb_spec d now); [|discriminate]. lia.
      * split; [|rewrite D; intros [X|X]; discriminate]. destruct O1 as [[O1 _]|[[O1|O1] _]]; rewrite O1 in C; [congruence | discriminate | discriminate].
    + assert (Kept : (exists w, nth_error (t_waits t1) n0 = Some w /\ w_state w = Started) -> exists w, nth_error (t_waits t2) n0 = Some w /\ w_state w = Started).
      { intros (w & A & B). assert (Li : n0 < length (t_waits t2)) by (rewrite S2; enough (n0 < length (t_waits t1)) by lia; apply nth_error_Some; congruence).
        apply nth_error_Some in Li. destruct (nth_error (t_waits t2) n0) as [w'|] eqn:Ei; [|congruence]. exists w'. split; [reflexivity|]. destruct (S1 n0 w' Ei) as [(w1 & B1 & D & K)|(_ & B1 & _)].
        - rewrite A in B1. inversion B1; subst. unfold becomes in K. destruct K as [K|[K|[K|[K|[K|K]]]]]; decompose [and] K; congruence.
        - assert (n0 < length (t_waits t1)) by (apply nth_error_Some; congruence). lia. }
      rewrite S3, M1, <- app_assoc. eexists. split; [reflexivity|]. destruct l as [ms'| | | | | |i|i|i]; rewrite ?app_nil_r; try (destruct M2 as [M2|[M2 M3]]; [left; exact M2 | right; split; [exact M2 | apply Kept; exact M3]]).
      destruct (S4 i eq_refl) as (d & A & B).
      assert (i < length (t_waits t1)) by (apply nth_error_Some; congruence).
      destruct (Nat.lt_ge_cases i n0) as [L|L]; [destruct (W1 i _ L A) as [X|[X|X]]; discriminate|].
      assert (i = n0) by (destruct O1 as [[_ O1]|[_ O1]]; lia). subst i.
      right. split; [|exists (mkWait d Started); split; [exact B | reflexivity]].
      destruct M2 as [->|[_ (w & M2 & M3)]]; [|rewrite A in M2; inversion M2; subst; discriminate].
      exists (t_now t1). split; [reflexivity|]. apply (N1 _ A). right. reflexivity.
Qed.

(** ** C64: no timeout is lost *)

(** what the timer and the workers do by themselves *)
Definition works (l : label) : Prop := match l with Expire _ | Take _ | Start _ => True | _ => False end.
(** The action was scheduled (the call is at its last step, in any execution) and neither cancelled
    nor scheduled again: once the delay has passed and the workers have nothing left to do, it was
    started by this call. *)
Theorem C64_fires : forall now0 ls0 t due ls t', exec (new_task now0) ls0 = Some t -> t_owner t = Sched_set due -> no_schedule ls -> no_cancel ls ->
  exec t (AsyncWait :: ls) = Some t' -> due <= t_now t' -> (forall l, works l -> step t' l = None) ->
  exists time, In (time, length (t_waits t)) (t_starts t') /\ due <= time.
Proof.
  intros now0 ls0 t due ls t' H0 Ho Hs Hc H. destruct (inv_exec _ _ _ H0) as [_ _ _ _ Vf _ _ _]. rewrite Ho in Vf. cbn [exec] in H. destruct (step t AsyncWait) as [t1|] eqn:E1; [|discriminate].
  set (i := length (t_waits t)).
  assert (Hx : exec (new_task now0) (ls0 ++ AsyncWait :: ls) = Some t') by (rewrite exec_app, H0; cbn [exec]; rewrite E1; exact H).
  destruct (inv_exec _ _ _ Hx) as [_ _ _ _ _ _ _ Vsd]. clear Hx.
  assert (I1 : t_owner t1 = Outside /\ t_cancelled t1 = false /\ nth_error (t_waits t1) i = Some (mkWait due Pending)).
  { destruct t as [now c ctx ws o st]. cbn in *. subst o. inversion E1; subst. cbn. repeat split; try exact Vf. unfold i. rewrite nth_error_app2, Nat.sub_diag by lia. reflexivity. }
  clear E1 Ho H0 Vf.
  enough (G : no_schedule ls -> no_cancel ls -> t_owner t' = Outside /\ t_cancelled t' = false /\
     exists st, nth_error (t_waits t') i = Some (mkWait due st) /\ (st = Pending \/ st = Due \/ st = Checked \/ st = Started /\ exists time, In (time, i) (t_starts t'))).
  { intros Hd Hw. destruct (G Hs Hc) as (_ & Cf & st & A & B). destruct t' as [now c ctx ws o sts]. cbn in *. subst c. destruct B as [-> |[-> |[-> |[-> [time B]]]]].
    - specialize (Hw (Expire i) I). cbn in Hw. rewrite A in Hw. apply Nat.leb_le in Hd. rewrite Hd in Hw. discriminate.
    - specialize (Hw (Take i) I). cbn in Hw. rewrite A in Hw. discriminate.
    - specialize (Hw (Start i) I). cbn in Hw. rewrite A in Hw. discriminate.
    - exists time. split; [exact B|]. destruct (Vsd _ _ B) as (d & X & Y). rewrite A in X. inversion X; subst. exact Y. }
  clear Hs Hc Vsd. revert ls t' H. apply (exec_ind_r (fun ls t' => no_schedule ls -> no_cancel ls -> t_owner t' = Outside /\ t_cancelled t' = false /\
     exists st, nth_error (t_waits t') i = Some (mkWait due st) /\ (st = Pending \/ st = Due \/ st = Checked \/ st = Started /\ exists time, In (time, i) (t_starts t')))).
  - intros _ _. destruct I1 as (A & B & C). split; [exact A|]. split; [exact B|]. exists Pending. auto.
  - intros ls l t2 t3 _ IH St Hs Hc. apply Forall_app in Hs. destruct Hs as [Hs Hs1]. inversion Hs1 as [|? ? Hs2 _]; subst. apply Forall_app in Hc. destruct Hc as [Hc Hc1]. inversion Hc1 as [|? ? Hc2 _]; subst.
    destruct (IH Hs Hc) as (O & F & st & A & B). destruct (step_waits _ _ _ St) as (S1 & S2 & S3 & S4 & S5).
    assert (Own : t_owner t3 = Outside /\ t_cancelled t3 = false /\ (forall j, j < length (t_waits t2) -> nth_error (t_waits t3) j = nth_error (t_waits t2) j \/ l = Expire j \/ l = Take j \/ l = Start j)).
    { destruct t2 as [now c ctx ws o sts]. cbn in O, F. subst o c. destruct l as [ms| | | | | |k|k|k]; try discriminate; cbn in *; brk St; inversion St; subst; cbn; (split; [reflexivity|]); (split; [reflexivity|]); intros j _; auto;
      destruct (Nat.eq_dec j k) as [->|Hn]; auto; left; apply set_wait_other; exact Hn. }
    destruct Own as (O' & F' & U). split; [exact O'|]. split; [exact F'|].
    assert (Li : i < length (t_waits t2)) by (apply nth_error_Some; congruence).
    assert (Li3 : i < length (t_waits t3)) by lia. apply nth_error_Some in Li3. destruct (nth_error (t_waits t3) i) as [[d s3]|] eqn:E3; [|congruence].
    destruct (S1 i _ E3) as [(w & X & Y & K)|(_ & X & _)]; [|lia]. rewrite A in X. inversion X; subst w. cbn in Y, K. subst d. exists s3. split; [reflexivity|]. rewrite F in K.
    assert (Grow : (exists time, In (time, i) (t_starts t2)) -> exists time, In (time, i) (t_starts t3)) by (intros [time T]; exists time; rewrite S3; apply in_or_app; left; exact T).
    unfold becomes in K. destruct K as [K|[[K1 K2]|[[K1 K2]|[[K1 [K2 K3]]|[[K1 [K2 K3]]|[K1 [K2 K3]]]]]]].
    + subst s3. intuition.
    + (* aborted: only by schedule and cancel *) subst. destruct (U i Li) as [E|[E|[E|E]]].
      * rewrite E, A in E3. discriminate.
      * subst l. destruct t2 as [now c ctx ws o sts]. cbn in *. rewrite A in St. brk St. inversion St; subst. cbn in E3. rewrite (set_wait_same _ _ _ _ A) in E3. discriminate.
      * subst l. destruct t2 as [now c ctx ws o sts]. cbn in *. rewrite A in St. discriminate.
      * subst l. destruct t2 as [now c ctx ws o sts]. cbn in *. rewrite A in St. discriminate.
    + destruct K2; subst. auto.
    + subst. auto.
    + subst. destruct B as [B|[B|[B|[B _]]]]; discriminate.
    + subst. right. right. right. split; [reflexivity|]. exists (t_now t2). rewrite S3. apply in_or_app. right. left. reflexivity.
Qed.

(** ** Examples *)
Definition ex_ls : list label := [Schedule 5; SetExpiry; Tick; AsyncWait; Tick; CancelTimer; Take 0; SetCancelled; Schedule 2; SetExpiry].
Definition ex_t : task := match exec (new_task 10) ex_ls with Some t => t | None => new_task 0 end.
Definition ex_t' : task := match exec ex_t [AsyncWait; Tick; Tick; Expire 1; Take 1; Start 1; Tick] with Some t => t | None => new_task 0 end.
Example C64_example : exec (new_task 10) ex_ls = Some ex_t /\ t_owner ex_t = Sched_set 14 /\ exec ex_t [AsyncWait; Tick; Tick; Expire 1; Take 1; Start 1; Tick] = Some ex_t' /\
  14 <= t_now ex_t' /\ (forall l, works l -> step ex_t' l = None) /\ t_starts ex_t' = [(14, 1)].
Proof.
  split; [reflexivity|]. split; [reflexivity|]. split; [reflexivity|]. split; [vm_compute; lia|]. split; [|reflexivity].
  intros [ms| | | | | |i|i|i] H; try contradiction; destruct i as [|[|[|i]]]; reflexivity.
Qed.
Example C63_example : exists t0, exec (new_task 10) [Schedule 5; SetExpiry; AsyncWait; Schedule 7] = Some t0 /\ t_owner t0 = Sched_reset 7 /\
  (forall w, In w (t_waits t0) -> w_state w <> Due /\ w_state w <> Checked).
Proof. eexists. split; [reflexivity|]. split; [reflexivity|]. intros w [<-|[]]. split; discriminate. Qed.
Example C24_example : exists t t', exec (new_task 10) [Schedule 1; SetExpiry; AsyncWait; Tick; Expire 0; CancelTimer; SetCancelled] = Some t /\ t_owner t = Outside /\ t_cancelled t = true /\
  exec t [Tick; Take 0] = Some t' /\ t_starts t' = [].
Proof. eexists. eexists. repeat (split; [reflexivity|]). reflexivity. Qed.

Print Assumptions C24_race_refuted.
Print Assumptions C24_cancel_partial.
Print Assumptions C63_last_delay_refuted.
Print Assumptions C63_own_delay_partial.
Print Assumptions C63_last_delay_partial.
Print Assumptions C64_fires.
