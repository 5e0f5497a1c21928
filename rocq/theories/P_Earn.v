(** P_Earn.v — property C128: what a share earns. *)
From Verif Require Import L_Earn.

(** C128 As long as there are shares, the exact price of a share after any history is
    the price before plus every gain divided by the shares there were when it came; to
    which the rounding of the trades adds something, and never takes anything away:
    less than the price of one unit of a share for a deposit and less than one unit of
    EGLD for a redemption, divided among all shares. *)
Theorem C128_price_history : forall w os,
  Reachable w -> always (fun v => 0 < ls_supply v) w os ->
  (price w + per_share w os <= price (run w os) <= price w + per_share w os + dust w os)%Q.
Proof. exact earn_history. Qed.
Print Assumptions C128_price_history.

(** What rounding adds is negligible: with never fewer than [S] units of shares, at
    most one part in [S] of the price for every trade. *)
Theorem C128_dust_small : forall w os S,
  Reachable w -> 0 < S -> always (fun v => S <= ls_supply v) w os ->
  (dust w os <= q (trades w os) * price (run w os) / q S)%Q.
Proof. exact small_dust. Qed.
Print Assumptions C128_dust_small.

(** So somebody who just holds [x] shares while the others do what they like earns
    [x] times the gains per share, up to one unit of EGLD and the dust. *)
Theorem C128_holder : forall w os u,
  Reachable w -> always (fun v => 0 < ls_supply v) w os ->
  (forall b, In b (bookings w os) -> ~ party u b) ->
  let x := ls_balance u w in
  ls_balance u (run w os) = x
  /\ (q (egld_worth w x) + q x * per_share w os < q (egld_worth (run w os) x) + 1)%Q
  /\ (q (egld_worth (run w os) x) < q (egld_worth w x) + 1 + q x * (per_share w os + dust w os))%Q.
Proof. exact earn_holder. Qed.
Print Assumptions C128_holder.

(** Case: account 100 holds 2 LS tokens while account 500 has its deposit staked,
    rewards of 1.92 EGLD arrive for 102 LS tokens, 500 redeems 40 LS tokens,
    501 deposits an odd amount and another reward of 62 EGLD is given. The 2 LS tokens are worth
    3.838 EGLD then; rounding accounts for less than one part in 10^19 of it. *)
Definition earn_ops : list op :=
  stake_ops ++ reward_ops ++ redeem_ops ++ [OTx 501 (7 * E + 12345) [] Delegate; OTx 9 (62 * E) [] AddRewards; OTx 500 0 [] (SetFees 3)].
Example C128_case :
  Reachable w_deposit /\ always (fun v => 0 < ls_supply v) w_deposit earn_ops
  /\ bookings w_deposit earn_ops = [VGain 1920000000000000000; VOut 500 (40 * E); VIn 501 (7 * E + 12345); VGain (62 * E)]
  /\ (forall b, In b (bookings w_deposit earn_ops) -> ~ party 100 b)
  /\ ls_balance 100 w_deposit = 2 * E /\ trades w_deposit earn_ops = 2
  /\ (per_share w_deposit earn_ops == (192 # 10200) + (62000000000000000000 # 68870669745958441678))%Q
  /\ (0 < dust w_deposit earn_ops < 1 # 30000000000000000000)%Q
  /\ egld_worth w_deposit (2 * E) = 2 * E /\ egld_worth (run w_deposit earn_ops) (2 * E) = 3838123233331426214.
Proof.
  split; [exact w_deposit_reach|]. split; [apply always_pos; vm_compute; reflexivity|].
  assert (Hb : bookings w_deposit earn_ops = [VGain 1920000000000000000; VOut 500 (40 * E); VIn 501 (7 * E + 12345); VGain (62 * E)])
    by (vm_compute; reflexivity).
  split; [exact Hb|]. split.
  { rewrite Hb. intros b [<-|[<-|[<-|[<-|[]]]]]; cbn; congruence || tauto. }
  split; [vm_compute; reflexivity|]. split; [vm_compute; reflexivity|]. split; [vm_compute; reflexivity|].
  split; [split; vm_compute; reflexivity|]. split; vm_compute; reflexivity.
Qed.
