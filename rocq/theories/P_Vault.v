(** P_Vault.v — property C127: to its holders the contract is a plain vault with
    shares. *)
From Verif Require Import L_Vault.

(** C127 After every history, supply, reserve and everybody's LS tokens are what a
    plain vault holds after the deposits, redemptions, gains and transfers that
    succeeded, in that order: shares in proportion, rounded down, and nothing else.
    Queues, providers, epochs, batches and settings leave no other trace. *)
Theorem C127_is_a_vault : forall w os, Deployed w -> shows (run w os) (replay (bookings w os)).
Proof. exact vault_history. Qed.
Print Assumptions C127_is_a_vault.

(** So the price and what everybody holds depend on nothing else: two contracts,
    however they were set up and whatever their providers and operators did, agree
    in all of it if the same was booked in the same order. *)
Theorem C127_nothing_else_matters : forall w1 w2 os1 os2,
  Deployed w1 -> Deployed w2 -> bookings w1 os1 = bookings w2 os2 ->
  ls_supply (run w1 os1) = ls_supply (run w2 os2) /\ virtual_reserve (run w1 os1) = virtual_reserve (run w2 os2)
  /\ (forall u, ls_balance u (run w1 os1) = ls_balance u (run w2 os2))
  /\ (forall a, ls_worth (run w1 os1) a = ls_worth (run w2 os2) a)
  /\ (forall x, egld_worth (run w1 os1) x = egld_worth (run w2 os2) x).
Proof. exact only_bookings. Qed.
Print Assumptions C127_nothing_else_matters.

(** Conversely, whatever a vault may book (deposits and redemptions of at least
    1 EGLD) some contract has booked, without a failure. *)
Theorem C127_every_vault : forall bs, sensible empty_vault bs ->
  exists w os, Deployed w /\ Forall (eq SOk) (statuses w os) /\ bookings w os = bs /\ shows (run w os) (replay bs).
Proof. exact every_vault. Qed.
Print Assumptions C127_every_vault.

(** Case: two whitelistings, a deposit, rewards of 2 EGLD of which 4% are kept as
    fee, a redemption. A contract with another fee, where the stake was never
    delegated, the providers refused everything, somebody failed to redeem too much
    and the rewards came as a gift, books the same and agrees in everything. *)
Definition vault_ops : list op := setup_ops ++ deposit_ops ++ stake_ops ++ reward_ops ++ redeem_ops ++ unstake_ops.
Definition other_start : world :=
  World (Cfg false 900 200 14400 10 7 20 3 None None [] TNotSet TNotSet) (Pool 0 0 0 0 0 0 0) [] [] ∅ ∅ 0 ∅ ∅ ∅ 0 9 100 [] [] ∅ [].
Definition other_ops : list op :=
  firstn 7 setup_ops ++
  [OTx 100 E [] Delegate; OTx 100 E [] Delegate; OTx 500 0 [Pay TokLs (101 * E)] UnDelegate; OTx 500 (100 * E) [] Delegate; OEpoch 4;
   OTx 100 3000000000000000000 [] (Whitelist 1000 77 0 0 10 800); OExec 0 None; OCb 0; OTx 7 1920000000000000000 [] AddRewards;
   OTx 500 0 [Pay TokLs (40 * E)] UnDelegate].
Example C127_case :
  Deployed w0 /\ Deployed other_start
  /\ bookings w0 vault_ops = [VIn 100 E; VIn 100 E; VIn 500 (100 * E); VGain 1920000000000000000; VOut 500 (40 * E)]
  /\ bookings other_start other_ops = bookings w0 vault_ops
  /\ ls_balance 500 (run other_start other_ops) = 60 * E /\ ls_supply (run w0 vault_ops) = 62 * E
  /\ virtual_reserve (run other_start other_ops) = 63167058823529411765
  /\ contract_egld (run w0 vault_ops) <> contract_egld (run other_start other_ops)
  /\ sensible empty_vault [VIn 5 (2 * E); VGain 7; VMove 5 6 E; VOut 6 E; VIn 6 (3 * E)].
Proof.
  split; [do 9 eexists; exact w0_deployed|]. split; [exists 100, 200, 900, 14400, 10, 20, 7, 3, 9; vm_compute; reflexivity|].
  do 5 (split; [vm_compute; reflexivity|]). split; [vm_compute; discriminate|]. vm_compute. repeat split; discriminate.
Qed.
