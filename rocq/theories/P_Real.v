(** P_Real.v — properties C83 and C84: what has been promised against what is
    really there, with providers that may lose stake. *)
From Verif Require Import Scenario L_Real.

(** C83 promises are covered by real assets: after any history, the reserve, the
    unstake tokens of the users and the fee reserve add up to the EGLD really held by
    the contract, by the providers and under way, less what was given to the contract
    or away, less what is not booked yet or never will be because its callback
    aborted, up to the net amounts brought in by migration and the net losses of the
    providers. *)
Theorem C83_promises_explained : forall w os,
  Deployed w ->
  promises (run w os) + not_booked_yet (run w os) + tally gift w os + tally (lost uncredited) w os
    + history_sum ust_given_away w os + history_sum migrated_pending w os + tally provider_gain w os
  = assets (run w os) + history_sum migrated_stake w os + tally provider_loss w os.
Proof. exact promises_assets. Qed.
Print Assumptions C83_promises_explained.

(** So nothing is promised beyond what is there as long as no provider loses stake
    and no stake is announced through [migrate], whatever callbacks abort. *)
Theorem C83_promises_covered : forall w os,
  Deployed w ->
  promises (run w os) <= assets (run w os) + history_sum migrated_stake w os + tally provider_loss w os.
Proof. exact promises_covered. Qed.
Print Assumptions C83_promises_covered.

(** Case: a batch of un-delegations under way, a donation, a reward on its way back,
    a reward of 2 EGLD whose callback aborted, an un-delegation whose callback
    aborted, a provider that lost 37 EGLD and another that came into 25. *)
Definition loss_ops : list op :=
  inflight_ops ++ [ODonate 11; OTx 100 0 [] ClaimRewards; OExec 1 (Some (2 * E)); OAbort 1; OAbort 0; OEpoch 1;
   OTx 100 0 [] ClaimRewards; OExec 1 (Some E); OTx 501 (30 * E) [] Delegate;
   OProvider 1000 (20 * E) (30 * E); OProvider 1001 (40 * E) 0].
Example C83_case :
  Deployed w0
  /\ promises (run w0 loss_ops) = 132080000000000000000 /\ assets (run w0 loss_ops) = 123080000000000000011
  /\ tally provider_loss w0 loss_ops = 36961782288649127693 /\ tally provider_gain w0 loss_ops = 24961782288649127693
  /\ not_booked_yet (run w0 loss_ops) = E /\ tally gift w0 loss_ops = 11 /\ tally (lost uncredited) w0 loss_ops = 2 * E
  /\ history_sum migrated_stake w0 loss_ops = 0
  /\ under_way (run w0 loss_ops) = 0 /\ on_way_back (run w0 loss_ops) = E.
Proof.
  split; [exact w0_is_deployed|]. vm_compute. repeat split; reflexivity.
Qed.

(** C84 A provider's loss is borne by all holders alike. False: no book follows it.
    In the witness a provider loses everything that was unbonding there. Two holders
    of as much of the same matured unstake token are left; no EGLD is unbonding, under
    way or waiting for them. Whoever comes first is paid in full, and then no
    withdrawal of the other succeeds. *)
Theorem C84_loss_shared_refuted :
  exists w os u v n r a, let x := run w os in
    Deployed w /\ clean_history w os /\ 0 < tally provider_loss w os
    /\ history_sum migrated_stake w os = 0 /\ assets x < promises x
    /\ u <> v /\ release_epoch n x = Some r /\ r <= w_epoch x
    /\ 0 < a /\ ust_of n u x = a /\ ust_of n v x = a
    /\ w_calls x = [] /\ w_res x = [] /\ unstake_queue x = 0 /\ (forall c, snd (live_of x c) = 0)
    /\ snd (step x (OTx u 0 [Pay (TokUst n) a] Withdraw)) = SOk
    /\ egld_sent u (fst (step x (OTx u 0 [Pay (TokUst n) a] Withdraw))) = a
    /\ forall eg p pays, snd (step (fst (step x (OTx u 0 [Pay (TokUst n) a] Withdraw))) (OTx v eg (p :: pays) Withdraw)) <> SOk.
Proof. exact loss_not_shared. Qed.
Print Assumptions C84_loss_shared_refuted.

(** Partial: what is lost stays lost and is the whole difference. Missing: how it is
    shared. At every moment of a history without migration the net loss of the
    providers is exactly what the promises exceed the assets by, once what was
    donated, forfeited, lost with an aborted callback or is still to be credited is
    set aside. *)
Theorem C84_shortfall_stays_partial : forall w os,
  Deployed w -> history_sum migrated_stake w os = 0 -> history_sum migrated_pending w os = 0 ->
  assets (run w os) + tally provider_loss w os
  = promises (run w os) + tally provider_gain w os
    + (not_booked_yet (run w os) + tally gift w os + tally (lost uncredited) w os + history_sum ust_given_away w os).
Proof. exact shortfall. Qed.
Print Assumptions C84_shortfall_stays_partial.

(** Case: the witness above went on after the loss: a holder was paid, 5 EGLD of
    rewards were credited, and the promises still exceed the assets by the loss. *)
Definition after_loss_ops : list op :=
  slash_ops ++ [OTx 500 0 [Pay (TokUst 1) 6897361732559857964] Withdraw; OTx 100 0 [] ClaimRewards; OExec 0 (Some (5 * E)); OCb 0].
Example C84_case :
  Deployed w0 /\ clean_history w0 after_loss_ops /\ forallb ok_b (statuses w0 after_loss_ops) = true
  /\ history_sum migrated_stake w0 after_loss_ops = 0 /\ history_sum migrated_pending w0 after_loss_ops = 0
  /\ tally provider_loss w0 after_loss_ops = 25038217711350872307
  /\ promises (run w0 after_loss_ops) = assets (run w0 after_loss_ops) + 25038217711350872307.
Proof.
  split; [exact w0_is_deployed|]. split; [apply clean_history_b; vm_compute; reflexivity|].
  vm_compute. repeat split; reflexivity.
Qed.
