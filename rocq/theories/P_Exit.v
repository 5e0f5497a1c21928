(** P_Exit.v — properties C76 and C77: EGLD sent to the contract changes nothing
    for anybody, and everybody can be paid out. *)
From Verif Require Import Scenario L_Exit.

(** C76 donations interfere with nothing: with more EGLD in the contract every
    action has the same outcome and leads to the same state, apart from that EGLD;
    so a transfer in the middle of a history changes neither the outcome of any
    other action nor anything in the final state but the balance. *)
Theorem C76_balance_irrelevant : forall x w os,
  Reachable w ->
  run (richer x w) os = richer x (run w os) /\ statuses (richer x w) os = statuses w os.
Proof. exact richer_history. Qed.
Print Assumptions C76_balance_irrelevant.

Theorem C76_donation_inert : forall w os1 a os2,
  Reachable w ->
  set_log [] (run w (os1 ++ ODonate a :: os2)) = set_log [] (richer a (run w (os1 ++ os2)))
  /\ statuses w (os1 ++ ODonate a :: os2) = statuses w os1 ++ SOk :: statuses (run w os1) os2
  /\ statuses w (os1 ++ os2) = statuses w os1 ++ statuses (run w os1) os2.
Proof. exact donation_history. Qed.
Print Assumptions C76_donation_inert.

(** Case: 1000 EGLD are sent to the contract between the set-up and the deposit;
    the later deposits, rewards and redemptions are quoted and settled as before. *)
Definition before_gift : list op := setup_ops.
Definition after_gift : list op := deposit_ops ++ stake_ops ++ reward_ops ++ redeem_ops ++ unstake_ops.
Example C76_case :
  Reachable w0
  /\ forallb ok_b (statuses w0 (before_gift ++ ODonate (1000 * E) :: after_gift)) = true
  /\ contract_egld (run w0 (before_gift ++ ODonate (1000 * E) :: after_gift)) = contract_egld w_unbonding + 1000 * E
  /\ egld_worth (run w0 (before_gift ++ ODonate (1000 * E) :: after_gift)) E = egld_worth w_unbonding E
  /\ E < egld_worth w_unbonding E.
Proof. split; [exact w0_reach|]. vm_compute. repeat split. Qed.

(** C77 everybody can be paid out: from any point of an orderly history with
    nothing under way, an operator can collect what unbonds at the providers, and one
    deposit that covers the queue completes the pot; every matured unstake token is
    then paid in full. *)
Theorem C77_tokens_paid_out : forall w0 os m d a e u pays,
  Deployed w0 -> along orderly w0 os ->
  let w := run w0 os in
  quiet w -> operator m w -> c_usttok (w_cfg w) = TIssued -> d <> SELF -> u <> SELF ->
  unstake_queue w + ONE_EGLD <= a -> 0 < ls_worth w a -> w_epoch w + e < 2 ^ 64 ->
  Forall (fun p => 0 < y_amt p /\ exists n r, y_tok p = TokUst n /\ release_epoch n w = Some r /\ r <= w_epoch w + e) pays ->
  (forall n, pay_of_nonce n pays <= ust_of n u w) ->
  let ops := OEpoch e :: collect m w ++ [OTx d a [] Delegate; OTx u 0 pays Withdraw] in
  Forall (eq SOk) (statuses w ops) /\ egld_sent u (run w ops) = pay_total pays.
Proof. exact exit_procedure. Qed.
Print Assumptions C77_tokens_paid_out.

(** A holder of LS tokens gets their whole worth at the time of redemption. *)
Theorem C77_holder_paid_out : forall w0 os m d u x,
  Deployed w0 -> along orderly w0 os ->
  let w := run w0 os in
  quiet w -> operator m w -> c_usttok (w_cfg w) = TIssued -> d <> SELF -> u <> SELF ->
  x <= ls_balance u w -> ONE_EGLD <= egld_worth w x -> w_epoch w + c_unbond (w_cfg w) < 2 ^ 64 ->
  let redeem := [OTx u 0 [Pay TokLs x] UnDelegate] in
  exists a pays,
    let ops := redeem ++ OEpoch (c_unbond (w_cfg w)) :: collect m w ++ [OTx d a [] Delegate; OTx u 0 pays Withdraw] in
    Forall (eq SOk) (statuses w ops)
    /\ egld_sent u (run w redeem) + egld_sent u (run w ops) = egld_worth w x.
Proof. exact holder_exit. Qed.
Print Assumptions C77_holder_paid_out.

(** Case: in the standard history user 500 holds 60 LS tokens and an unstake token;
    the owner collects, account 600 deposits, and both are paid. *)
Definition exit_ops : list op :=
  OEpoch 10 :: collect 100 w_unbonding ++ [OTx 600 (2 * E) [] Delegate; OTx 500 0 [Pay (TokUst 1) (38 * E)] Withdraw].
Definition redeem_exit_ops : list op :=
  OTx 500 0 [Pay TokLs (60 * E)] UnDelegate :: OEpoch 10 :: collect 100 w_unbonding
  ++ [OTx 600 (63 * E) [] Delegate; OTx 500 0 [Pay (TokUst 1) 61129411764705882353] Withdraw].
Example C77_case :
  along orderly w0 unbonding_ops /\ run w0 unbonding_ops = w_unbonding
  /\ quiet w_unbonding /\ operator 100 w_unbonding /\ c_usttok (w_cfg w_unbonding) = TIssued
  /\ unstake_queue w_unbonding + ONE_EGLD <= 2 * E /\ 0 < ls_worth w_unbonding (2 * E)
  /\ release_epoch 1 w_unbonding = Some 15 /\ w_epoch w_unbonding = 5 /\ 38 * E <= ust_of 1 500 w_unbonding
  /\ egld_sent 500 (run w_unbonding exit_ops) = 38 * E
  /\ ls_balance 500 w_unbonding = 60 * E /\ ONE_EGLD <= egld_worth w_unbonding (60 * E)
  /\ forallb ok_b (statuses w_unbonding exit_ops) = true
  /\ forallb ok_b (statuses w_unbonding redeem_exit_ops) = true
  /\ egld_worth w_unbonding (60 * E) = 61129411764705882353
  /\ egld_sent 500 (run w_unbonding redeem_exit_ops) = 61129411764705882353.
Proof.
  split; [apply orderly_along; vm_compute; reflexivity|].
  split; [unfold w_unbonding, w_redeemed, w_rewarded, w_staked, w_deposit, w_setup, unbonding_ops; by rewrite !run_app|].
  split; [split; vm_compute; reflexivity|]. split; [vm_compute; repeat split; try reflexivity; try (left; reflexivity); discriminate|].
  vm_compute. repeat split; try reflexivity; discriminate.
Qed.
