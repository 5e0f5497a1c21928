(** P_Settle.v — property C100: whatever is under way can be brought to an end. *)
From Verif Require Import Scenario L_Settle.

(** C100 everything under way settles: at any point of an orderly history with no
    first stake at a new provider under way and a fee of at most 100%, whatever the
    providers answer to the waiting calls, all replies can then be booked in the order
    they were given; nothing aborts, and nothing is left under way. *)
Theorem C100_settles : forall w0 os outs,
  Deployed w0 -> along orderly w0 os ->
  let w := run w0 os in
  c_fees (w_cfg w) <= 10000 -> Forall no_whitelisting (unanswered w) ->
  length outs = length (w_calls w) -> Forall (eq SOk) (statuses w (map (OExec 0) outs)) ->
  Forall (eq SOk) (statuses w (settle w outs)) /\ along orderly w (settle w outs) /\ quiet (run w (settle w outs)).
Proof. exact settles. Qed.
Print Assumptions C100_settles.

(** There are always such answers: all refused. *)
Theorem C100_refusals_settle : forall w0 os,
  Deployed w0 -> along orderly w0 os ->
  let w := run w0 os in let outs := repeat None (length (w_calls w)) in
  c_fees (w_cfg w) <= 10000 -> Forall no_whitelisting (unanswered w) ->
  Forall (eq SOk) (statuses w (settle w outs)) /\ quiet (run w (settle w outs)).
Proof. exact refusals_settle. Qed.
Print Assumptions C100_refusals_settle.

(** So the way out of C77 is open from there too: once all is settled, an operator
    collects what unbonds, a deposit covers the queue, and matured unstake tokens are
    paid in full. *)
Theorem C100_paid_from_anywhere : forall w0 os outs m d a e u pays,
  Deployed w0 -> along orderly w0 os ->
  let w := run w0 os in let v := run w (settle w outs) in
  c_fees (w_cfg w) <= 10000 -> Forall no_whitelisting (unanswered w) ->
  length outs = length (w_calls w) -> Forall (eq SOk) (statuses w (map (OExec 0) outs)) ->
  operator m w -> c_usttok (w_cfg w) = TIssued -> d <> SELF -> u <> SELF ->
  unstake_queue v + ONE_EGLD <= a -> 0 < ls_worth v a -> w_epoch w + e < 2 ^ 64 ->
  Forall (fun p => 0 < y_amt p /\ exists n r, y_tok p = TokUst n /\ release_epoch n w = Some r /\ r <= w_epoch w + e) pays ->
  (forall n, pay_of_nonce n pays <= ust_of n u w) ->
  let ops := settle w outs ++ OEpoch e :: collect m v ++ [OTx d a [] Delegate; OTx u 0 pays Withdraw] in
  Forall (eq SOk) (statuses w ops) /\ egld_sent u (run w ops) = pay_total pays.
Proof. exact exit_anywhere. Qed.
Print Assumptions C100_paid_from_anywhere.

(** Case: two un-delegations are out, one executed and none booked. Provider 1000
    accepts and all is settled; or it refuses, its part is back in the queue, and a
    deposit that covers the queue lets user 500 be paid. *)
Definition w_inflight : world := run w0 inflight_ops.
Definition settled (out : option N) : world := run w_inflight (settle w_inflight [out]).
Definition leave (out : option N) (a : N) : list op :=
  settle w_inflight [out] ++ OEpoch 10 :: collect 100 (settled out)
  ++ [OTx 600 a [] Delegate; OTx 500 0 [Pay (TokUst 1) (38 * E)] Withdraw].

Example C100_case :
  Deployed w0 /\ along orderly w0 inflight_ops
  /\ c_fees (w_cfg w_inflight) = 400 /\ Forall no_whitelisting (unanswered w_inflight)
  /\ length (w_calls w_inflight) = 1%nat /\ length (w_res w_inflight) = 1%nat /\ unstake_queue w_inflight < E
  /\ forallb ok_b (statuses w_inflight (settle w_inflight [Some 0])) = true
  /\ forallb ok_b (statuses w_inflight (settle w_inflight [None])) = true
  /\ 24 * E < unstake_queue (settled None)
  /\ operator 100 w_inflight /\ c_usttok (w_cfg w_inflight) = TIssued
  /\ release_epoch 1 w_inflight = Some 15 /\ w_epoch w_inflight = 5 /\ 38 * E <= ust_of 1 500 w_inflight
  /\ forallb ok_b (statuses w_inflight (leave (Some 0) (2 * E))) = true
  /\ egld_sent 500 (run w_inflight (leave (Some 0) (2 * E))) = 38 * E
  /\ unstake_queue (settled None) + ONE_EGLD <= 30 * E /\ 0 < ls_worth (settled None) (30 * E)
  /\ forallb ok_b (statuses w_inflight (leave None (30 * E))) = true
  /\ egld_sent 500 (run w_inflight (leave None (30 * E))) = 38 * E.
Proof.
  split; [exact w0_is_deployed|]. split; [apply orderly_along; vm_compute; reflexivity|].
  split; [vm_compute; reflexivity|].
  split; [apply no_whitelisting_all; vm_compute; reflexivity|]. split; [vm_compute; reflexivity|]. split; [vm_compute; reflexivity|].
  split; [vm_compute; reflexivity|]. split; [vm_compute; reflexivity|]. split; [vm_compute; reflexivity|].
  split; [vm_compute; reflexivity|].
  split; [split; [done|]; split; [left; vm_compute; reflexivity|]; split; vm_compute; reflexivity|].
  repeat split; vm_compute; first [reflexivity|discriminate].
Qed.
