(** P_Flow.v — properties C04, C05, C06: backing of both tokens, amounts in flight. *)
From Verif Require Import Scenario L_Flow L_Lost.

(** C04 Every unstake token is backed one for one; what was being un-delegated when
    a callback aborted stays counted on the backing side. *)
Theorem C04_unstake_tokens_backed : forall w os,
  Deployed w ->
  let w' := run w os in
  ust_of_users w' + history_sum ust_given_away w os
  = unstake_queue w' + undelegating_total w' + unbonding w' + total_withdrawn w'
    + tally (lost (by_call undel_any)) w os.
Proof. exact ust_backing_lost. Qed.
Print Assumptions C04_unstake_tokens_backed.

(** C04 in every history: with what the contract has recorded as in flight
    instead of what really is. *)
Theorem C04_unstake_tokens_backed_always : forall w os,
  Deployed w ->
  let w' := run w os in
  ust_of_users w' + history_sum ust_given_away w os
  = unstake_queue w' + pending_unstaking_total w' + unbonding w' + total_withdrawn w'.
Proof. exact ust_backing. Qed.
Print Assumptions C04_unstake_tokens_backed_always.

(** Case: 38.8 EGLD redeemed, un-delegations sent out, one of them executed and its
    callback aborted. *)
Example C04_case :
  Deployed w0
  /\ ust_of_users (run w0 (inflight_ops ++ [OAbort 0])) = 38832941176470588235
  /\ undelegating_total (run w0 (inflight_ops ++ [OAbort 0])) = 25038217711350872307
  /\ tally (lost (by_call undel_any)) w0 (inflight_ops ++ [OAbort 0]) = 13794723465119715928
  /\ clean_history w0 inflight_ops /\ undelegating_total (run w0 inflight_ops) = 38832941176470588235.
Proof.
  split; [exact w0_is_deployed|]. do 3 (split; [vm_compute; reflexivity|]).
  split; [apply clean_history_b; vm_compute; reflexivity|]. vm_compute. reflexivity.
Qed.

(** C05 The virtual reserve is fully backed. *)
Theorem C05_reserve_backed : forall w os,
  Deployed w ->
  let w' := run w os in
  virtual_reserve w' + unstake_queue w' + undelegating_total w' + history_sum migrated_pending w os
    + tally (lost (by_call undel_any)) w os
  = pending_egld w' + staked_total w' + delegating_total w' + history_sum migrated_stake w os
    + tally (lost (by_call deleg_any)) w os.
Proof. exact reserve_backing_lost. Qed.
Print Assumptions C05_reserve_backed.

Theorem C05_reserve_backed_always : forall w os,
  Deployed w ->
  let w' := run w os in
  virtual_reserve w' + unstake_queue w' + pending_unstaking_total w' + history_sum migrated_pending w os
  = pending_egld w' + staked_total w' + pending_staking_total w' + history_sum migrated_stake w os.
Proof. exact reserve_backing. Qed.
Print Assumptions C05_reserve_backed_always.

Example C05_case :
  Deployed w0
  /\ virtual_reserve (run w0 (inflight_ops ++ [OAbort 0])) = 63167058823529411765
  /\ staked_total (run w0 (inflight_ops ++ [OAbort 0])) = 102 * E
  /\ undelegating_total (run w0 (inflight_ops ++ [OAbort 0])) = 25038217711350872307
  /\ tally (lost (by_call undel_any)) w0 (inflight_ops ++ [OAbort 0]) = 13794723465119715928.
Proof. split; [exact w0_is_deployed|]. vm_compute. repeat split. Qed.

(** C06 In-flight bookkeeping per provider. *)
Theorem C06_in_flight_exact : forall w c p,
  ReachableClean w -> w_pv w !! c = Some p ->
  p_pst p = deleg_in_flight w c /\ p_pun p = undel_in_flight w c.
Proof. exact in_flight_clean. Qed.
Print Assumptions C06_in_flight_exact.

Theorem C06_in_flight_never_smaller : forall w c p,
  Reachable w -> w_pv w !! c = Some p ->
  deleg_in_flight w c <= p_pst p /\ undel_in_flight w c <= p_pun p.
Proof. exact in_flight_le. Qed.
Print Assumptions C06_in_flight_never_smaller.

Theorem C06_no_record_no_call : forall w c,
  Reachable w -> w_pv w !! c = None -> deleg_in_flight w c = 0 /\ undel_in_flight w c = 0.
Proof. exact in_flight_none. Qed.
Print Assumptions C06_no_record_no_call.

(** the unbonding pot is the sum of the providers' unbonding records *)
Theorem C06_unbonding_is_sum : forall w,
  Reachable w -> unbonding w = unstaked_total w.
Proof. exact unbonding_is_sum. Qed.
Print Assumptions C06_unbonding_is_sum.

Example C06_case :
  let w := run w0 inflight_ops in
  ReachableClean w
  /\ (exists p, w_pv w !! 1000 = Some p /\ 0 < p_pun p)
  /\ undel_in_flight w 1000 + undel_in_flight w 1001 = 38832941176470588235
  /\ w_pv w !! 1002 = None
  /\ 0 < unstaked_total w_unbonding.
Proof.
  split.
  - apply clean_run; [vm_compute; reflexivity|]. exact (clean_deploy _ _ _ _ _ _ _ _ _ _ w0_deployed).
  - split.
    + eexists. split; [vm_compute; reflexivity|]. vm_compute. reflexivity.
    + vm_compute. repeat split.
Qed.
