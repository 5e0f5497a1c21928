(** P_Share.v — property C103: rewards are shared in proportion. *)
From Verif Require Import Scenario L_Share.

(** C103 rewards are shared in proportion: when rewards of [p] arrive (claimed from the
    providers, less the fee, or added by anybody), nobody's tokens change, and any number
    [x] of LS tokens is worth [x * p / supply] more than before, up to one unit of 10^-18. *)
Theorem C103_proportional : forall w o p x,
  adds_reward w o p -> snd (step w o) = SOk -> 0 < ls_supply w ->
  let w' := fst (step w o) in
  (forall u, ls_balance u w' = ls_balance u w)
  /\ egld_worth w x + x * p / ls_supply w <= egld_worth w' x <= egld_worth w x + x * p / ls_supply w + 1.
Proof. exact reward_proportional. Qed.
Print Assumptions C103_proportional.

(** Who deposits [a] right before the reward and redeems right after it, gets at most the
    share [a / (R + a)] of the reward on top of the deposit, where [R] is the reserve
    before; and what [y] tokens of somebody else are worth in the end is, up to one unit,
    at least [y / supply] of the reserve and of the rest of the reward. *)
Theorem C103_late_deposit : forall w u a pays o p,
  let w1 := fst (step w (OTx u a pays Delegate)) in
  let m := ls_balance u w1 - ls_balance u w in
  let w2 := fst (step w1 o) in
  let w3 := fst (step w2 (OTx u 0 [Pay TokLs m] UnDelegate)) in
  Reachable w -> 0 < ls_supply w -> snd (step w (OTx u a pays Delegate)) = SOk ->
  adds_reward w1 o p -> snd (step w1 o) = SOk -> snd (step w2 (OTx u 0 [Pay TokLs m] UnDelegate)) = SOk ->
  let e := paid_out u w2 w3 in let R := virtual_reserve w in
  e * (R + a) <= a * (R + a + p)
  /\ forall y, y * R * (R + a + p) <= (egld_worth w3 y + 1) * ls_supply w * (R + a).
Proof. exact late_deposit. Qed.
Print Assumptions C103_late_deposit.

(** Cases: a claimed reward of 3 EGLD, of which 2.88 EGLD are left after the fee, while
    102 tokens exist, 100 of them held by user 500; and user 600 who deposits as much as
    the reserve right before 2 EGLD are added: 1 EGLD of them goes to 600. *)
Definition w_claimed : world := run w_staked [OTx 100 0 [] ClaimRewards; OExec 0 (Some (3 * E))].
Definition late_ops : list op := [OTx 600 (102 * E) [] Delegate; OTx 9 (2 * E) [] AddRewards; OTx 600 0 [Pay TokLs (102 * E)] UnDelegate].
Definition late (n : nat) : world := run w_staked (firstn n late_ops).
Example C103_case :
  adds_reward w_claimed (OCb 0) (288 * E / 100) /\ snd (step w_claimed (OCb 0)) = SOk
  /\ ls_supply w_claimed = 102 * E /\ ls_balance 500 w_claimed = 100 * E
  /\ egld_worth w_claimed (100 * E) = 100 * E /\ 100 * E * (288 * E / 100) / (102 * E) = 2823529411764705882
  /\ egld_worth (fst (step w_claimed (OCb 0))) (100 * E) = 102823529411764705882
  /\ Reachable w_staked /\ virtual_reserve w_staked = 102 * E /\ forallb ok_b (statuses w_staked late_ops) = true
  /\ adds_reward (late 1) (OTx 9 (2 * E) [] AddRewards) (2 * E)
  /\ ls_balance 600 (late 1) - ls_balance 600 w_staked = 102 * E
  /\ paid_out 600 (late 2) (late 3) = 103 * E
  /\ egld_worth (late 3) (100 * E) = 100980392156862745098.
Proof.
  split; [left; exists 0%nat, [1000; 1001], (3 * E); repeat split; vm_compute; reflexivity|].
  split; [vm_compute; reflexivity|]. split; [vm_compute; reflexivity|]. split; [vm_compute; reflexivity|].
  split; [vm_compute; reflexivity|]. split; [vm_compute; reflexivity|]. split; [vm_compute; reflexivity|].
  split; [exact w_staked_reach|]. split; [vm_compute; reflexivity|]. split; [vm_compute; reflexivity|].
  split; [right; by exists 9|]. repeat split; vm_compute; reflexivity.
Qed.
