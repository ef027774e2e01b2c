(** * ServerSpec: what handling a request means, written without the handlers *)

From Verif Require Import Base Buffer Codec CodecSpec Msg FsLogStore FsLogSpec Raft.
Local Open Scope N_scope.

(** ** Terms

    A server that learns of a higher term adopts it, forgets its vote, stops
    being candidate or leader and stops the heartbeats; it saves the new term. *)
Definition disk_with_state (t : N) (v : Z) (d : disk) : disk :=
  mkDisk (Some (t, v)) (dk_config d) (dk_log d) (dk_commit d) (dk_snp d) (dk_snp_data d).
Definition with_term (t : N) (n : node) : node :=
  mkNode (n_id n) (n_prm n) Follower (n_leader n) t (-1) 0 [] false None (n_changing n) (n_catching n) (n_steps n)
    (n_quick n) (n_smc n) (map p_disable_hb (n_peers n)) (n_config n) None (n_to_add n) (n_snp n) (n_snp_busy n)
    (n_timer n || negb (n_catching n)) (n_elapsed n) (n_uid n) (n_clients n) (disk_with_state t (-1) (n_disk n)).
(** the server when it begins to handle a request of term [t] from another
    server: the term is adopted if it is higher, a countdown to leave restarts *)
Definition arrived (t : N) (n : node) : node :=
  let n := if n_term n <? t then with_term t n else n in
  if (0 <? n_steps n)%Z then set_steps 2 n else n.
Definition arrived_acts (t : N) (n : node) : list act :=
  if n_term n <? t then ASaveState t (-1) :: (if n_catching n then [] else [ATimer true]) ++ [ABecomeFollower] else [].

(** ** The end of the log

    index and term of the last entry; after a compaction the last entry may be
    the one covered by the snapshot *)
Definition last_index (n : node) : N := a_next (n_log n) - 1.
Definition last_term (n : node) : N :=
  if last_index n =? 0 then 0
  else match a_get (n_log n) (last_index n) with
       | Some e => ev_term e
       | None => match dk_snp (n_disk n) with
                 | Some s => if sn_last_log_idx s =? last_index n then sn_last_log_term s else 0
                 | None => 0
                 end
       end.
(** a log ending with (lt, li) is at least as up to date as the log of [n] *)
Definition up_to_date (lt li : N) (n : node) : Prop :=
  last_term n < lt \/ (lt = last_term n /\ last_index n <= li).
(** the last entry is in the log itself (or the log is empty from the start) *)
Definition end_in_log (n : node) : Prop :=
  1 <= al_start (n_log n) /\ (al_start (n_log n) = 1 \/ al_ents (n_log n) <> []).

(** ** Append entries

    how many of the entries [es], the first with index [i], are already in the
    log with the same term *)
Fixpoint already (l : alog) (i : N) (es : list entry_val) : nat :=
  match es with
  | [] => 0
  | e :: es' =>
      match a_get l i with
      | Some e' => if ev_term e' =? ev_term e then S (already l (i + 1) es') else 0
      | None => 0
      end
  end.
(** the log after installing [es] from index [i] on: nothing happens if all are
    there, else the log is cut at the first one missing or different *)
Definition installed (l : alog) (i : N) (es : list entry_val) : alog :=
  let k := already l i es in
  if Nat.eqb k (length es) then l else a_replace l (i + N.of_nat k) (skipn k es).

(** the entry before the request's entries is in the log *)
Definition consistent (n : node) (q : req) : Prop :=
  rq_last_idx q = 0 \/
  (exists e, a_get (n_log n) (rq_last_idx q) = Some e /\ ev_term e = rq_last_term q) \/
  (rq_last_idx q < al_start (n_log n) /\ exists s, dk_snp (n_disk n) = Some s /\
     sn_last_log_idx s = rq_last_idx q /\ sn_last_log_term s = rq_last_term q).
(** the request concerns the part of the log the server still has: its entries
    begin after the compacted part, whose end is known from the snapshot *)
Definition in_reach (n : node) (q : req) : Prop :=
  (rq_entries q = [] \/ al_start (n_log n) <= rq_last_idx q + 1) /\
  (rq_last_idx q = 0 \/ al_start (n_log n) <= rq_last_idx q \/
   exists s, dk_snp (n_disk n) = Some s /\ sn_last_log_idx s = rq_last_idx q).

(** pre_commit is called for application entries only *)
Definition pre (i : N) (e : entry_val) : list act := if beq (ev_type e) app_log then [APreCommit i e] else [].
Fixpoint append_acts (i : N) (es : list entry_val) : list act :=
  match es with [] => [] | e :: es' => AAppend e :: pre i e ++ append_acts (i + 1) es' end.
(** the calls that install [es] from index [i] on *)
Definition install_acts (l : alog) (i : N) (es : list entry_val) : list act :=
  let k := already l i es in
  let j := i + N.of_nat k in
  match skipn k es with
  | [] => []
  | e :: rest =>
      match a_get l j with
      | Some old => (if beq (ev_type old) app_log then [ARollback j old] else []) ++ AWriteAt j e :: pre j e ++ append_acts (j + 1) rest
      | None => append_acts j (e :: rest)
      end
  end.
(** a configuration change is pending after a configuration entry was stored *)
Definition has_conf (es : list entry_val) : bool := existsb (fun e => beq (ev_type e) conf_log) es.
Definition install_changing (l : alog) (i : N) (es : list entry_val) (c : bool) : bool :=
  let k := already l i es in
  match skipn k es with
  | [] => c
  | rest =>
      match a_get l (i + N.of_nat k) with
      | Some old => has_conf rest || (c && negb (beq (ev_type old) conf_log))
      | None => has_conf rest || c
      end
  end.
(** hearing from the leader of the current term: a candidate gives up; the
    election timer starts anew unless the server is joining *)
Definition heard (n : node) : node :=
  let cand := match n_role n with Candidate => true | _ => false end in
  mkNode (n_id n) (n_prm n) Follower (n_leader n) (n_term n) (n_vote n) (n_votes n) (n_voted n) (n_done n)
    (if cand then None else n_prevote n) (n_changing n) (n_catching n) (n_steps n) (n_quick n) (n_smc n)
    (if cand then map p_disable_hb (n_peers n) else n_peers n) (n_config n) (if cand then None else n_join n)
    (n_to_add n) (n_snp n) (n_snp_busy n) (n_timer n || negb (n_catching n)) (n_elapsed n) (n_uid n) (n_clients n) (n_disk n).
Definition heard_acts (n : node) : list act :=
  (if n_catching n then [] else [ATimer true]) ++ (match n_role n with Candidate => [ABecomeFollower] | _ => [] end).
Definition set_log (l : alog) (n : node) : node :=
  set_disk (mkDisk (dk_state (n_disk n)) (dk_config (n_disk n)) l (dk_commit (n_disk n)) (dk_snp (n_disk n)) (dk_snp_data (n_disk n))) n.
(** the server after accepting an append-entries request *)
Definition followed_leader (q : req) (n : node) : node :=
  let i := rq_last_idx q + 1 in
  set_quick (N.max (n_quick n) (rq_commit q))
    (set_leader (rq_src q)
      (set_changing (install_changing (n_log n) i (rq_entries q) (n_changing n))
        (set_log (installed (n_log n) i (rq_entries q)) (heard n)))).
