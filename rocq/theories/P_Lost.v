(** P_Lost.v — property C94: what callbacks that abort leave behind. *)
From Verif Require Import Scenario L_Lost.

(** C94 What aborted callbacks leave behind, exactly: at every moment the amounts a
    provider's record shows as pending are what is really unanswered plus what was
    lost with the replies whose callback aborted. The contract has no way to take
    such amounts off the record again. *)
Theorem C94_lost_replies : forall w os c,
  Reachable w ->
  p_pst (rec (run w os) c) + deleg_in_flight w c
    = p_pst (rec w c) + deleg_in_flight (run w os) c + tally (lost (by_call (deleg_amt c))) w os
  /\ p_pun (rec (run w os) c) + undel_in_flight w c
    = p_pun (rec w c) + undel_in_flight (run w os) c + tally (lost (by_call (undel_amt c))) w os.
Proof. exact lost_history. Qed.
Print Assumptions C94_lost_replies.

(** The same over all providers, from the deployment on. *)
Theorem C94_lost_replies_total : forall w os,
  Deployed w ->
  pending_staking_total (run w os) = delegating_total (run w os) + tally (lost (by_call deleg_any)) w os
  /\ pending_unstaking_total (run w os) = undelegating_total (run w os) + tally (lost (by_call undel_any)) w os.
Proof. exact lost_total_deployed. Qed.
Print Assumptions C94_lost_replies_total.

(** An aborting callback changes nothing but this: its reply is gone and the EGLD
    that came with it stays in the contract. *)
Theorem C94_abort : forall w i x,
  nth_error (w_res w) i = Some x ->
  let w' := fst (step w (OAbort i)) in
  snd (step w (OAbort i)) = SCbFail EAborted
  /\ contract_egld w' = contract_egld w + comes_with x /\ w_res w' = drop_nth i (w_res w) /\ w_calls w' = w_calls w
  /\ w_pool w' = w_pool w /\ w_pv w' = w_pv w /\ w_dl w' = w_dl w /\ w_ul w' = w_ul w /\ w_log w' = []
  /\ ledgers_unchanged w w' /\ env_unchanged w w'.
Proof. exact abort_effect. Qed.
Print Assumptions C94_abort.

(** Histories without aborted callback lose nothing. *)
Theorem C94_nothing_lost : forall f w os, clean_history w os -> tally (lost f) w os = 0.
Proof. exact lost_clean. Qed.
Print Assumptions C94_nothing_lost.

(** Case: two batches of which one reply each is lost. *)
Definition lost_stake_ops : list op := [OTx 100 0 [] (DelegatePending None); OExec 0 None; OAbort 0].
Definition lost_unstake_ops : list op := [OTx 100 0 [] (UnDelegatePending None); OExec 1 (Some 0); OAbort 0].
Example C94_case :
  Reachable w_deposit /\ Reachable w_redeemed
  /\ nth_error (w_res (run w_deposit [OTx 100 0 [] (DelegatePending None); OExec 0 None])) 0
     = Some (KDeleg 1000 24038217711350872307, RFail)
  /\ p_pst (rec (run w_deposit lost_stake_ops) 1000) = 24038217711350872307
  /\ deleg_in_flight (run w_deposit lost_stake_ops) 1000 = 0
  /\ tally (lost (by_call (deleg_amt 1000))) w_deposit lost_stake_ops = 24038217711350872307
  /\ contract_egld (run w_deposit lost_stake_ops) = 24038217711350872307
  /\ pending_egld (run w_deposit lost_stake_ops) = 0
  /\ p_pun (rec (run w_redeemed lost_unstake_ops) 1001) = 13794723465119715928
  /\ undel_in_flight (run w_redeemed lost_unstake_ops) 1001 = 0
  /\ clean_history w0 inflight_ops.
Proof.
  split; [exact w_deposit_reach|]. split; [exact w_redeemed_reach|].
  do 8 (split; [vm_compute; reflexivity|]).
  apply clean_history_b. vm_compute. reflexivity.
Qed.
