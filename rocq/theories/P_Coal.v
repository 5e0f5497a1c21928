(** P_Coal.v — properties C90 and C91: what trading can and cannot achieve. *)
From Verif Require Import Scenario L_Coal.

(** C90 a group of accounts cannot gain more than the rewards: over any history in
    which only members of the group act, what the members are sent plus what their LS
    tokens and unstake tokens are then worth is at most what they paid plus what their
    tokens were worth (rounded up), plus the rewards credited, the stake announced
    through [migrate] and the first stakes already under way at the start. *)
Theorem C90_group_gain : forall (S : group) w os,
  Reachable w -> S SELF = false -> Forall (only_group S) os -> 0 < ls_supply w ->
  tally (received_by S) w os + egld_worth (run w os) (ls_held S (run w os)) + ust_held S (run w os)
  <= tally (paid_by S) w os + (egld_worth w (ls_held S w) + 1) + ust_held S w
     + tally reward_credited w os + history_sum migrated_stake w os + deposits_under_way w.
Proof. exact (fun S w os Hr HS HF Hp => group_gain S HS w os Hr HF Hp). Qed.
Print Assumptions C90_group_gain.

(** Without LS tokens in existence the reserve belongs to nobody; the group may end up
    with it, but with nothing else. *)
Theorem C90_group_gain_empty : forall (S : group) w os,
  Reachable w -> S SELF = false -> Forall (only_group S) os -> ls_supply w = 0 ->
  tally (received_by S) w os + egld_worth (run w os) (ls_held S (run w os)) + ust_held S (run w os)
  <= tally (paid_by S) w os + virtual_reserve w + ust_held S w
     + tally reward_credited w os + history_sum migrated_stake w os + deposits_under_way w.
Proof. exact (fun S w os Hr HS HF Hp => group_gain_empty S HS w os Hr HF Hp). Qed.
Print Assumptions C90_group_gain_empty.

(** Case: 600 and the owner act; 600 deposits 7 EGLD and redeems 3 tokens, a new
    provider refuses the owner's 2 EGLD, the owner claims a reward of 2 EGLD. The
    bystander 500 gets most of the reward. Without the reward the bound is met to the unit
    (it leaves room for the unit it rounds up by). *)
Definition pair : group := fun u => (u =? 600) || (u =? 100).
Definition trade_ops : list op :=
  [OTx 600 (7 * E) [] Delegate; OTx 600 0 [Pay TokLs (3 * E)] UnDelegate;
   OTx 100 (2 * E) [] (Whitelist 1002 79 0 0 5 700); OExec 0 None; OCb 0].
Definition pair_ops : list op := trade_ops ++ [OTx 100 0 [] ClaimRewards; OExec 0 (Some (2 * E)); OCb 0].
Definition ends_with (os : list op) : N :=
  tally (received_by pair) w_unbonding os + egld_worth (run w_unbonding os) (ls_held pair (run w_unbonding os))
  + ust_held pair (run w_unbonding os).
Definition starts_with (os : list op) : N := tally (paid_by pair) w_unbonding os + egld_worth w_unbonding (ls_held pair w_unbonding).
Example C90_case :
  Reachable w_unbonding /\ pair SELF = false /\ Forall (only_group pair) pair_ops /\ 0 < ls_supply w_unbonding
  /\ forallb ok_b (statuses w_unbonding pair_ops) = true
  /\ ls_held pair w_unbonding = 2 * E
  /\ starts_with trade_ops = 11037647058823529411 /\ ends_with trade_ops = 11037647058823529411
  /\ ends_with pair_ops = 11208765493715893200 /\ tally reward_credited w_unbonding pair_ops = 1920000000000000000.
Proof.
  split; [exact w_unbonding_reach|]. split; [reflexivity|].
  split; [repeat constructor; intros u [= <-]; reflexivity|].
  split; [vm_compute; reflexivity|]. vm_compute. repeat split.
Qed.

(** Case of an empty pool: everything has been redeemed, then 2 EGLD are added as
    rewards; nobody holds LS tokens and the reserve is 2 EGLD. *)
Definition all_but_one : group := fun u => negb (u =? SELF).
Definition orphan_ops : list op :=
  firstn 8 setup_ops ++ [OTx 500 (5 * E) [] Delegate; OTx 500 0 [Pay TokLs (5 * E)] UnDelegate; OTx 600 (2 * E) [] AddRewards].
Example C90_empty_case :
  Reachable (run w0 orphan_ops) /\ all_but_one SELF = false
  /\ forallb ok_b (statuses w0 orphan_ops) = true
  /\ ls_supply (run w0 orphan_ops) = 0 /\ virtual_reserve (run w0 orphan_ops) = 2 * E
  /\ Forall (only_group all_but_one) [OTx 500 (3 * E) [] Delegate; OTx 600 E [] AddRewards].
Proof.
  split; [apply reach_run, w0_reach|]. split; [reflexivity|]. vm_compute. repeat split; [].
  repeat constructor; intros u [= <-]; reflexivity.
Qed.

(** C91 trading does not move the price: over any history without rewards, whoever
    acts and whatever they do, what a deposit of [a] mints never rises, and falls by no
    more than the rounding: for every action [a / L] units and one unit in all, where
    [L] is the least the reserve ever was. *)
Theorem C91_price_steady : forall L w os a,
  Reachable w -> 0 < L ->
  along (fun v o => ~ brings_rewards v o) w os -> always (fun v => L <= virtual_reserve v) w os ->
  ls_worth (run w os) a <= ls_worth w a <= ls_worth (run w os) a + N.of_nat (length os) * a / L + 1.
Proof. exact (fun L w os a Hr HL Ha Hv => quote_drift L os w a Hr HL Ha Hv). Qed.
Print Assumptions C91_price_steady.

(** Case: twenty actions, among them eight trades of odd amounts. A deposit of 1000
    EGLD would mint 48 units of 10^-18 less afterwards. *)
Definition busy_ops : list op :=
  flat_map (fun k => [OTx 600 (7 * E + k) [] Delegate; OTx 600 0 [Pay TokLs (5 * E + k)] UnDelegate;
                      OTx 100 0 [] (DelegatePending None); OExec 0 (Some 0); OCb 0]) [1; 3; 5; 77].
Example C91_case :
  Reachable w_unbonding /\ 0 < 63 * E /\ along (fun v o => ~ brings_rewards v o) w_unbonding busy_ops
  /\ always (fun v => 63 * E <= virtual_reserve v) w_unbonding busy_ops
  /\ forallb ok_b (statuses w_unbonding busy_ops) = true
  /\ ls_worth w_unbonding (1000 * E) = 981524249422632794452
  /\ ls_worth (run w_unbonding busy_ops) (1000 * E) = 981524249422632794404.
Proof. split; [exact w_unbonding_reach|]. vm_compute. repeat split; first [discriminate|intros []]. Qed.
