(** P_Drain.v — property C102: the un-delegation queue is emptied without deposits. *)
From Verif Require Import Scenario L_Drain.

(** C102 the queue drains: at a quiet point of an orderly history, with records whose
    net stake is zero or at least 1 EGLD and usable scoring settings, an operator can
    empty the un-delegation queue down to less than 2 EGLD by un-delegations alone,
    each of which is accepted and which the providers can carry out, unless the
    providers run out of stake before. Nothing aborts, and nothing is under way at the
    end. *)
Theorem C102_queue_drains : forall w0 os m sc,
  Deployed w0 -> along orderly w0 os ->
  let w := run w0 os in
  quiet w -> operator m w ->
  c_score (w_cfg w) = Some sc -> distinct_bounds sc -> N.of_nat (length (w_ul w)) < 2 ^ 32 ->
  c_maxsel (w_cfg w) < 2 ^ 64 -> c_maxsel (w_cfg w) mod 2 ^ 32 <> 0 ->
  (forall c p, w_pv w !! c = Some p -> net_zero_or_one p) ->
  exists ops, let v := run w ops in
    Forall (drains m) ops /\ Forall (eq SOk) (statuses w ops) /\ along orderly w ops /\ quiet v
    /\ (unstake_queue v < 2 * ONE_EGLD \/ no_stake_left v).
Proof. exact queue_drains. Qed.
Print Assumptions C102_queue_drains.

(** Case: the sole provider has 71 EGLD and the queue holds 70.5 EGLD. The whole queue
    at once is accepted and moves nothing; without its last EGLD it goes out. *)
Definition w_stuck : world := run w0 L_Find2.idle_ops.
Definition drain_stuck : list op :=
  [OTx 100 0 [] (UnDelegatePending (Some (69 * E + E / 2))); OExec 0 (Some 0); OCb 0].
Definition w_drained : world := run w_stuck drain_stuck.

Example C102_case :
  Deployed w0 /\ along orderly w0 L_Find2.idle_ops /\ quiet w_stuck /\ operator 100 w_stuck
  /\ c_score (w_cfg w_stuck) = Some scfg_default
  /\ distinct_bounds scfg_default /\ N.of_nat (length (w_ul w_stuck)) = 1 /\ c_maxsel (w_cfg w_stuck) = 20
  /\ (forall c p, w_pv w_stuck !! c = Some p -> net_zero_or_one p)
  /\ unstake_queue w_stuck = 70 * E + E / 2 /\ fst (live_of w_stuck 1000) = 71 * E
  /\ unstake_queue (run w_stuck [OTx 100 0 [] (UnDelegatePending None)]) = 70 * E + E / 2
  /\ Forall (drains 100) drain_stuck /\ forallb ok_b (statuses w_stuck drain_stuck) = true
  /\ quiet w_drained /\ unstake_queue w_drained = E.
Proof.
  split; [exact w0_is_deployed|]. split; [apply orderly_along; vm_compute; reflexivity|].
  split; [split; vm_compute; reflexivity|].
  split; [split; [done|]; split; [left; vm_compute; reflexivity|]; split; vm_compute; reflexivity|].
  split; [vm_compute; reflexivity|]. split; [split; vm_compute; discriminate|].
  split; [vm_compute; reflexivity|]. split; [vm_compute; reflexivity|].
  split; [apply net_all; vm_compute; reflexivity|].
  split; [vm_compute; reflexivity|]. split; [vm_compute; reflexivity|]. split; [vm_compute; reflexivity|].
  split; [repeat constructor|]. split; [vm_compute; reflexivity|]. split; [split; vm_compute; reflexivity|].
  vm_compute; reflexivity.
Qed.
