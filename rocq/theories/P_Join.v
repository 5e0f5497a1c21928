(** P_Join.v — property C131: together or one after the other. *)
From Verif Require Import L_Join Scenario.

(** C131 A withdrawal with several unstake tokens is taken exactly when each of its
    payments, withdrawn alone and in the same order, would be; and then it pays the same
    EGLD in total and leaves every part of the state the same, the balances of every
    account included. So nobody gains or loses by joining withdrawals or splitting them. *)
Theorem C131_withdraw : forall w u l, Reachable w -> l <> [] ->
  let os := map (fun p => OTx u 0 [p] Withdraw) l in let c := OTx u 0 l Withdraw in
  (snd (step w c) = SOk <-> Forall (eq SOk) (statuses w os))
  /\ (snd (step w c) = SOk -> egld_sent u (fst (step w c)) = egld_received u w os /\ forall p, same p (run w os) (fst (step w c))).
Proof. exact join_each. Qed.
Print Assumptions C131_withdraw.

(** Case: half of what was unbonding is back. Three payments of 10, 10 and 15 EGLD are
    taken, the last one in part; in the order 15, 15 and 5 the last one is refused, and
    so are the three together. *)
Definition w_half : world :=
  run w_unbonding [OEpoch 10; OTx 100 0 [] (WithdrawPending 1000); OExec 0 (Some 25038217711350872307); OCb 0].
Definition unst (a : N) := Pay (TokUst 1) (a * E).
Example C131_case :
  Reachable w_half /\ total_withdrawn w_half = 25038217711350872307
  /\ snd (step w_half (OTx 500 0 [unst 10; unst 10; unst 15] Withdraw)) = SOk
  /\ egld_sent 500 (fst (step w_half (OTx 500 0 [unst 10; unst 10; unst 15] Withdraw))) = 25038217711350872307
  /\ ust_of 1 500 (fst (step w_half (OTx 500 0 [unst 10; unst 10; unst 15] Withdraw))) = 38832941176470588235 - 25038217711350872307
  /\ statuses w_half (map (fun p => OTx 500 0 [p] Withdraw) [unst 15; unst 15; unst 5]) = [SOk; SOk; SErr EInsufficientUnbonded]
  /\ snd (step w_half (OTx 500 0 [unst 15; unst 15; unst 5] Withdraw)) = SErr EInsufficientUnbonded.
Proof. split; [apply reach_run, w_unbonding_reach|]. vm_compute. repeat split. Qed.

(** Rewards added at once and rewards added in two parts are the same. *)
Theorem C131_rewards : forall w u x y, Reachable w ->
  let a := OTx u x [] AddRewards in let b := OTx u y [] AddRewards in let c := OTx u (x + y) [] AddRewards in
  (snd (step w c) = SOk <-> snd (step w a) = SOk /\ snd (step (fst (step w a)) b) = SOk)
  /\ (snd (step w c) = SOk -> forall p, same p (run w [a; b]) (fst (step w c))).
Proof. exact rewards_join. Qed.
Print Assumptions C131_rewards.

Example C131_rewards_case :
  Reachable w_staked /\ snd (step w_staked (OTx 9 (5 * E) [] AddRewards)) = SOk
  /\ virtual_reserve (fst (step w_staked (OTx 9 (5 * E) [] AddRewards))) = virtual_reserve w_staked + 5 * E
  /\ virtual_reserve (run w_staked [OTx 9 (3 * E) [] AddRewards; OTx 9 (2 * E) [] AddRewards]) = virtual_reserve w_staked + 5 * E.
Proof. split; [exact w_staked_reach|]. vm_compute. repeat split. Qed.

(** So are managers named at once and managers named in two parts. *)
Theorem C131_managers : forall w u l m, Reachable w ->
  let a := OTx u 0 [] (AddManagers l) in let b := OTx u 0 [] (AddManagers m) in let c := OTx u 0 [] (AddManagers (l ++ m)) in
  (snd (step w c) = SOk <-> snd (step w a) = SOk /\ snd (step (fst (step w a)) b) = SOk)
  /\ (snd (step w c) = SOk -> forall p, same p (run w [a; b]) (fst (step w c))).
Proof. exact managers_join. Qed.
Print Assumptions C131_managers.

Example C131_managers_case :
  Reachable w_staked /\ statuses w_staked [OTx 100 0 [] (AddManagers [7; 8; 7; 9])] = [SOk]
  /\ c_mgrs (w_cfg (fst (step w_staked (OTx 100 0 [] (AddManagers [7; 8; 7; 9]))))) = c_mgrs (w_cfg w_staked) ++ [7; 8; 9]
  /\ statuses w_staked [OTx 500 0 [] (AddManagers [7])] = [SErr EOnlyOwner].
Proof. split; [exact w_staked_reach|]. vm_compute. repeat split. Qed.
