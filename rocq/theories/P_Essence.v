(** P_Essence.v — property C135: what matters of a history. *)
From Verif Require Import Spec27 L_Essence P_Away Scenario.

(** C135 Take any history, in which nobody spends unstake tokens otherwise than by
    withdrawing them or transferring what they have, and no EGLD comes with a withdrawal.
    Keep only what matters of it: leave out the withdrawals, the claims of the fees and
    whatever was refused. What is left ends with the same statuses as amid the others,
    everybody receives the same EGLD but for what the withdrawals paid them, and at the end
    every part of the state is the same, except that the EGLD withdrawn is still in the pot,
    the tokens given up for it are still with their holders, the fees are unclaimed, and the
    balance is larger by what was withdrawn and claimed. *)
Theorem C135_essence : forall w os, Reachable w -> along spends_properly w os ->
  let es := essence w os in let z := run w os in let z' := run w es in let x := tally withdrawal w os in
  statuses w es = essential_statuses w os
  /\ (forall y, egld_received y w os = egld_received y w es + tally (withdrawn_by y) w os)
  /\ total_withdrawn z + x = total_withdrawn z'
  /\ (forall n y, ust_of n y z + tally (tokens_given n y) w os = ust_of n y z')
  /\ fees_reserve z <= fees_reserve z' /\ contract_egld z + x + (fees_reserve z' - fees_reserve z) = contract_egld z'
  /\ forall p, match p with Fees | Pot | Balance | UstOf _ _ => False | _ => True end -> same p z z'.
Proof. exact essence_same. Qed.
Print Assumptions C135_essence.

(** Case: the history of C134 between rewards, a claim of the fees, a refused claim and a
    refused redemption. *)
Definition lively : list op :=
  [OTx 100 0 [] ClaimRewards; OExec 0 (Some (3 * E)); OCb 0; OTx 9 0 [] (ClaimFees true)] ++ mixed
  ++ [OTx 501 0 [Pay TokLs (900 * E)] UnDelegate; OTx 9 0 [] (ClaimFees true); OTx 501 0 [] (SetFees 3); OTx 501 (2 * E) [] Delegate].
Example C135_case :
  Reachable w_low /\ along spends_properly w_low lively
  /\ length lively = 18%nat /\ length (essence w_low lively) = 11%nat
  /\ Forall (fun s => s = SOk) (essential_statuses w_low lively)
  /\ tally withdrawal w_low lively = 25038217711350872307
  /\ fees_reserve (run w_low lively) < fees_reserve (run w_low (essence w_low lively)).
Proof.
  split; [apply reach_run, w_unbonding_reach|]. split; [apply proper; by vm_compute|]. vm_compute. repeat split; repeat constructor.
Qed.
