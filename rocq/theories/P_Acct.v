(** P_Acct.v — properties C01, C02, C03, C08: solvency and supply. *)
From Verif Require Import Scenario L_Safe.

(** C01 Liquid solvency. *)
Theorem C01_liquid_solvency : forall w,
  Reachable w ->
  pending_egld w + total_withdrawn w + fees_reserve w <= contract_egld w.
Proof. exact (fun w H => a_egld w (acct w H)). Qed.
Print Assumptions C01_liquid_solvency.

(** Case: after a deposit, rewards and a redemption all three pots are in use. *)
Example C01_case :
  Reachable w_rewarded /\ pending_egld w_rewarded = 1920000000000000000
  /\ fees_reserve w_rewarded = 80000000000000000 /\ contract_egld w_rewarded = 2 * E.
Proof. split; [exact w_rewarded_reach|]. vm_compute. repeat split. Qed.

(** C02 Payouts never bounce: [EFunds] is the abort of every transfer, burn or
    quantity increase that the contract cannot cover (Chain.v). *)
Theorem C02_payouts_never_bounce : forall w o,
  Reachable w -> snd (step w o) <> SErr EFunds /\ snd (step w o) <> SCbFail EFunds.
Proof. exact never_out_of_funds. Qed.
Print Assumptions C02_payouts_never_bounce.

(** Case: a redemption of 1 LS token is paid at once out of pending EGLD. The
    same redemption bounces when the contract is robbed of its EGLD, a state no
    history reaches. *)
Example C02_case :
  Reachable w_rewarded
  /\ snd (step w_rewarded (OTx 500 0 [Pay TokLs (9 * E / 10)] UnDelegate)) = SOk
  /\ snd (step (set_egld 0 w_rewarded) (OTx 500 0 [Pay TokLs (9 * E / 10)] UnDelegate)) = SErr EFunds.
Proof. split; [exact w_rewarded_reach|]. vm_compute. repeat split. Qed.

(** C03 LS supply equals tokens in existence. *)
Theorem C03_supply_is_tokens_in_existence : forall w,
  Reachable w -> ls_supply w = ls_in_existence w.
Proof. exact (fun w H => eq_sym (a_supply w (acct w H))). Qed.
Print Assumptions C03_supply_is_tokens_in_existence.

Example C03_case :
  Reachable w_redeemed /\ ls_supply w_redeemed = 62 * E
  /\ amt_at (w_ls w_redeemed) 500 = 60 * E /\ amt_at (w_ls w_redeemed) 100 = 2 * E.
Proof. split; [exact w_redeemed_reach|]. vm_compute. repeat split. Qed.

(** C08 One LS token is always worth at least one EGLD. *)
Theorem C08_price_at_least_one : forall w,
  Reachable w ->
  ls_supply w <= virtual_reserve w
  /\ (forall a, 0 < amt_at (w_ls w) a -> 0 < virtual_reserve w).
Proof. exact price_at_least_one. Qed.
Print Assumptions C08_price_at_least_one.

Example C08_case :
  Reachable w_rewarded /\ ls_supply w_rewarded = 102 * E
  /\ virtual_reserve w_rewarded = 103920000000000000000 /\ 0 < amt_at (w_ls w_rewarded) 500.
Proof. split; [exact w_rewarded_reach|]. vm_compute. repeat split. Qed.
