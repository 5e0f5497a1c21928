(** P_Pool.v — properties C07, C09 to C15 and C18: the exchange rate, minting,
    redeeming, quotes and matching against the opposite queue. *)
From Verif Require Import Scenario L_Worth.

(** C07 The exchange rate never decreases. *)
Theorem C07_rate_never_decreases : forall w os,
  Reachable w -> always (fun v => 0 < ls_supply v) w os ->
  virtual_reserve w * ls_supply (run w os) <= virtual_reserve (run w os) * ls_supply w.
Proof. exact rate_history. Qed.
Print Assumptions C07_rate_never_decreases.

(** Case: delegation, rewards, redemption; the rate rises strictly. *)
Example C07_case :
  let os := stake_ops ++ reward_ops ++ redeem_ops ++ unstake_ops in
  Reachable w_deposit /\ always (fun v => 0 < ls_supply v) w_deposit os
  /\ virtual_reserve w_deposit * ls_supply (run w_deposit os)
     < virtual_reserve (run w_deposit os) * ls_supply w_deposit.
Proof.
  split; [exact w_deposit_reach|]. split; [apply always_pos; vm_compute; reflexivity|]. vm_compute. reflexivity.
Qed.

(** C09 No profit from trading with the pool. *)
Theorem C09_no_profit : forall w os,
  Reachable w -> always (fun v => 0 < ls_supply v) w os -> ls_supply (run w os) = ls_supply w ->
  virtual_reserve w <= virtual_reserve (run w os).
Proof. exact no_profit. Qed.
Print Assumptions C09_no_profit.

Theorem C09_round_trip : forall w u a pays,
  let w1 := fst (step w (OTx u a pays Delegate)) in
  let m := ls_balance u w1 - ls_balance u w in
  let o2 := OTx u 0 [Pay TokLs m] UnDelegate in
  Reachable w -> snd (step w (OTx u a pays Delegate)) = SOk -> snd (step w1 o2) = SOk ->
  paid_out u w1 (fst (step w1 o2)) <= a.
Proof. exact round_trip. Qed.
Print Assumptions C09_round_trip.

(** Case: user 501 deposits 10 EGLD, user 500 deposits 7, both redeem what they got. *)
Definition trade_ops : list op :=
  [OTx 501 (10 * E) [] Delegate; OTx 500 (7 * E) [] Delegate;
   OTx 501 0 [Pay TokLs 9815242494226327944] UnDelegate; OTx 500 0 [Pay TokLs 6870669745958429561] UnDelegate].
Example C09_case :
  Reachable w_rewarded /\ always (fun v => 0 < ls_supply v) w_rewarded trade_ops
  /\ ls_supply (run w_rewarded trade_ops) = ls_supply w_rewarded
  /\ forallb ok_b (statuses w_rewarded trade_ops) = true
  /\ ls_balance 501 (fst (step w_rewarded (OTx 501 (10 * E) [] Delegate))) = 9815242494226327944.
Proof.
  split; [exact w_rewarded_reach|]. split; [apply always_pos; vm_compute; reflexivity|]. vm_compute. repeat split.
Qed.
(** The supply has to stay positive: after the last token is redeemed the next
    deposit starts again at rate 1, so the same supply stands for less EGLD. *)
Definition restart_ops : list op :=
  [OMoveLs 100 500 (2 * E); OTx 500 0 [Pay TokLs (102 * E)] UnDelegate; OTx 500 (102 * E) [] Delegate].
Example C09_supply_must_stay_positive :
  forallb ok_b (statuses w_rewarded restart_ops) = true
  /\ ls_supply (run w_rewarded restart_ops) = ls_supply w_rewarded
  /\ virtual_reserve (run w_rewarded restart_ops) < virtual_reserve w_rewarded.
Proof. vm_compute. repeat split. Qed.

(** C10 Fair rounding of mint and redeem. *)
Theorem C10_mint_exact : forall w u a pays,
  Reachable w -> snd (step w (OTx u a pays Delegate)) = SOk ->
  let w' := fst (step w (OTx u a pays Delegate)) in
  exists m, ls_balance u w' = ls_balance u w + m /\ 0 < m
  /\ m * virtual_reserve w <= a * ls_supply w
  /\ (0 < virtual_reserve w -> a * ls_supply w < (m + 1) * virtual_reserve w)
  /\ (virtual_reserve w = 0 -> m = a)
  /\ ls_supply w' = ls_supply w + m /\ virtual_reserve w' = virtual_reserve w + a.
Proof. exact mint_exact. Qed.
Print Assumptions C10_mint_exact.

Theorem C10_redeem_exact : forall w u eg x,
  snd (step w (OTx u eg [Pay TokLs x] UnDelegate)) = SOk ->
  let w' := fst (step w (OTx u eg [Pay TokLs x] UnDelegate)) in
  let e := paid_out u w w' in
  0 < e /\ e * ls_supply w <= x * virtual_reserve w < (e + 1) * ls_supply w
  /\ ls_supply w' + x = ls_supply w /\ virtual_reserve w' + e = virtual_reserve w
  /\ ls_balance u w' + x = ls_balance u w.
Proof. exact redeem_exact. Qed.
Print Assumptions C10_redeem_exact.

(** Case: both amounts are rounded (the divisions leave a remainder). *)
Example C10_case :
  snd (step w_rewarded (OTx 501 (10 * E) [] Delegate)) = SOk
  /\ (10 * E * ls_supply w_rewarded) mod virtual_reserve w_rewarded <> 0
  /\ snd (step w_rewarded (OTx 500 0 [Pay TokLs (40 * E)] UnDelegate)) = SOk
  /\ (40 * E * virtual_reserve w_rewarded) mod ls_supply w_rewarded <> 0.
Proof. vm_compute. repeat split; discriminate. Qed.

(** C11 Splitting an operation gains nothing (any number of parts). *)
Theorem C11_split_deposits : forall w u l,
  Reachable w -> Forall (eq SOk) (statuses w (map (fun a => OTx u a [] Delegate) l)) ->
  snd (step w (OTx u (sumN l) [] Delegate)) = SOk ->
  ls_balance u (run w (map (fun a => OTx u a [] Delegate) l))
  <= ls_balance u (fst (step w (OTx u (sumN l) [] Delegate))).
Proof. exact split_deposits. Qed.
Print Assumptions C11_split_deposits.

Theorem C11_split_redemptions : forall w u l,
  Forall (eq SOk) (statuses w (map (fun x => OTx u 0 [Pay TokLs x] UnDelegate) l)) ->
  snd (step w (OTx u 0 [Pay TokLs (sumN l)] UnDelegate)) = SOk ->
  egld_received u w (map (fun x => OTx u 0 [Pay TokLs x] UnDelegate) l)
  + ust_balance u (run w (map (fun x => OTx u 0 [Pay TokLs x] UnDelegate) l))
  <= egld_sent u (fst (step w (OTx u 0 [Pay TokLs (sumN l)] UnDelegate)))
     + ust_balance u (fst (step w (OTx u 0 [Pay TokLs (sumN l)] UnDelegate))).
Proof. exact split_redeems. Qed.
Print Assumptions C11_split_redemptions.

Example C11_case :
  let l := [3 * E; 7 * E; 11 * E + 1] in
  Reachable w_rewarded
  /\ Forall (eq SOk) (statuses w_rewarded (map (fun a => OTx 501 a [] Delegate) l))
  /\ snd (step w_rewarded (OTx 501 (sumN l) [] Delegate)) = SOk
  /\ Forall (eq SOk) (statuses w_rewarded (map (fun x => OTx 500 0 [Pay TokLs x] UnDelegate) l))
  /\ snd (step w_rewarded (OTx 500 0 [Pay TokLs (sumN l)] UnDelegate)) = SOk
  (* and the loss from splitting is real *)
  /\ ls_balance 501 (run w_rewarded (map (fun a => OTx 501 a [] Delegate) l))
     < ls_balance 501 (fst (step w_rewarded (OTx 501 (sumN l) [] Delegate))).
Proof.
  cbv zeta. split; [exact w_rewarded_reach|]. split; [apply all_ok; vm_compute; reflexivity|].
  split; [vm_compute; reflexivity|]. split; [apply all_ok; vm_compute; reflexivity|]. vm_compute. repeat split.
Qed.

(** C12 Quotes are honoured. *)
Theorem C12_deposit_quote : forall w u a pays,
  snd (step w (OTx u a pays Delegate)) = SOk ->
  exists m, view_egld_value a w = Ok m
  /\ ls_balance u (fst (step w (OTx u a pays Delegate))) = ls_balance u w + m.
Proof. exact deposit_quote. Qed.
Print Assumptions C12_deposit_quote.

Theorem C12_redeem_quote : forall w u eg x,
  snd (step w (OTx u eg [Pay TokLs x] UnDelegate)) = SOk ->
  view_ls_value x w = Ok (paid_out u w (fst (step w (OTx u eg [Pay TokLs x] UnDelegate)))).
Proof. exact redeem_quote. Qed.
Print Assumptions C12_redeem_quote.

Theorem C12_deposit_quotes : forall w a m,
  view_egld_value a w = Ok m <-> c_lstok (w_cfg w) = TIssued /\ m = ls_worth w a /\ 0 < m.
Proof. exact deposit_quote_iff. Qed.
Print Assumptions C12_deposit_quotes.

Theorem C12_redeem_quotes : forall w x e,
  view_ls_value x w = Ok e <-> c_lstok (w_cfg w) = TIssued /\ x <= ls_supply w /\ e = egld_worth w x /\ 0 < e.
Proof. exact redeem_quote_iff. Qed.
Print Assumptions C12_redeem_quotes.

Example C12_case :
  snd (step w_rewarded (OTx 501 (10 * E) [] Delegate)) = SOk
  /\ view_egld_value (10 * E) w_rewarded = Ok 9815242494226327944
  /\ snd (step w_rewarded (OTx 500 0 [Pay TokLs (40 * E)] UnDelegate)) = SOk
  /\ view_ls_value (40 * E) w_rewarded = Ok 40752941176470588235.
Proof. vm_compute. repeat split. Qed.

(** C13 Full exit. *)
Theorem C13_full_exit : forall w u eg,
  let o := OTx u eg [Pay TokLs (ls_supply w)] UnDelegate in
  let w' := fst (step w o) in
  snd (step w o) = SOk ->
  paid_out u w w' = virtual_reserve w /\ virtual_reserve w' = 0 /\ ls_supply w' = 0.
Proof. exact full_exit. Qed.
Print Assumptions C13_full_exit.

(** It is always possible. *)
Theorem C13_full_exit_works : forall w u,
  Reachable w -> c_active (w_cfg w) = true -> c_lstok (w_cfg w) = TIssued -> c_usttok (w_cfg w) = TIssued ->
  u <> SELF -> ls_balance u w = ls_supply w -> 0 < ls_supply w -> ONE_EGLD <= virtual_reserve w ->
  let o := OTx u 0 [Pay TokLs (ls_supply w)] UnDelegate in let w' := fst (step w o) in
  snd (step w o) = SOk /\ paid_out u w w' = virtual_reserve w /\ virtual_reserve w' = 0 /\ ls_supply w' = 0.
Proof. exact full_exit_works. Qed.
Print Assumptions C13_full_exit_works.

Theorem C13_quotes_fit : forall w xs es,
  Forall2 (fun x e => view_ls_value x w = Ok e) xs es -> sumN xs <= ls_supply w -> sumN es <= virtual_reserve w.
Proof. exact quotes_sum. Qed.
Print Assumptions C13_quotes_fit.

Example C13_case :
  let w := fst (step w_rewarded (OMoveLs 100 500 (2 * E))) in
  ls_supply w = 102 * E /\ ls_balance 500 w = ls_supply w /\ snd (step w (OTx 500 0 [Pay TokLs (ls_supply w)] UnDelegate)) = SOk
  /\ Forall2 (fun x e => view_ls_value x w = Ok e) [40 * E; 62 * E] [40752941176470588235; 63167058823529411764]
  /\ sumN [40 * E; 62 * E] <= ls_supply w.
Proof.
  split; [vm_compute; reflexivity|]. split; [vm_compute; reflexivity|]. split; [vm_compute; reflexivity|].
  split; [repeat constructor; vm_compute; reflexivity|]. vm_compute. discriminate.
Qed.

(** C14 getExchangeRate is a faithful lower quote. *)
Theorem C14_rate_value : forall w,
  view_exchange_rate w = Ok (if ls_supply w =? 0 then 10 ^ 18 else 10 ^ 18 * virtual_reserve w / ls_supply w).
Proof. exact rate_eq. Qed.
Print Assumptions C14_rate_value.

Theorem C14_rate_at_least_one : forall w q,
  Reachable w -> view_exchange_rate w = Ok q -> 10 ^ 18 <= q.
Proof. exact rate_min. Qed.
Print Assumptions C14_rate_at_least_one.

Theorem C14_rate_monotone : forall w os q q',
  Reachable w -> always (fun v => 0 < ls_supply v) w os ->
  view_exchange_rate w = Ok q -> view_exchange_rate (run w os) = Ok q' -> q <= q'.
Proof. exact rate_mono. Qed.
Print Assumptions C14_rate_monotone.

Example C14_case :
  Reachable w_deposit /\ always (fun v => 0 < ls_supply v) w_deposit (stake_ops ++ reward_ops)
  /\ view_exchange_rate w_deposit = Ok 1000000000000000000
  /\ view_exchange_rate (run w_deposit (stake_ops ++ reward_ops)) = Ok 1018823529411764705.
Proof.
  split; [exact w_deposit_reach|]. split; [apply always_pos; vm_compute; reflexivity|]. vm_compute. repeat split.
Qed.

(** C15 Matching against the opposite queue. *)
Theorem C15_delegate_matching : forall w u a pays,
  snd (step w (OTx u a pays Delegate)) = SOk ->
  let w' := fst (step w (OTx u a pays Delegate)) in
  exists i r, i + r = a
  /\ total_withdrawn w' = total_withdrawn w + i /\ pending_egld w' = pending_egld w + r
  /\ unstake_queue w' + i = unstake_queue w
  /\ (i = 0 \/ unstake_queue w' = 0 \/ ONE_EGLD <= unstake_queue w')
  /\ (ONE_EGLD <= a -> r = 0 \/ ONE_EGLD <= r)
  /\ forall i' r', i' + r' = a -> i' <= unstake_queue w ->
      (unstake_queue w - i' = 0 \/ ONE_EGLD <= unstake_queue w - i') -> (r' = 0 \/ ONE_EGLD <= r') -> i' <= i.
Proof. exact delegate_split. Qed.
Print Assumptions C15_delegate_matching.

Theorem C15_undelegate_matching : forall w u eg x,
  snd (step w (OTx u eg [Pay TokLs x] UnDelegate)) = SOk ->
  let w' := fst (step w (OTx u eg [Pay TokLs x] UnDelegate)) in
  let e := paid_out u w w' in
  exists i r, i + r = e
  /\ egld_sent u w' = i /\ ust_balance u w' = ust_balance u w + r
  /\ contract_egld w' + i = contract_egld w
  /\ unstake_queue w' = unstake_queue w + r /\ pending_egld w' + i = pending_egld w
  /\ (i = 0 \/ pending_egld w' = 0 \/ ONE_EGLD <= pending_egld w')
  /\ (ONE_EGLD <= e -> r = 0 \/ ONE_EGLD <= r)
  /\ forall i' r', i' + r' = e -> i' <= pending_egld w ->
      (pending_egld w - i' = 0 \/ ONE_EGLD <= pending_egld w - i') -> (r' = 0 \/ ONE_EGLD <= r') -> i' <= i.
Proof. exact undelegate_split. Qed.
Print Assumptions C15_undelegate_matching.

(** Case: against a queue of 38.83 EGLD a deposit of 40 is matched with the whole
    queue and a deposit of 39 with 37.83, leaving 1 EGLD queued; a redemption
    worth 2.04 EGLD takes 0.92 of 1.92 pending. *)
Example C15_case :
  let w1 := fst (step w_redeemed (OTx 501 (40 * E) [] Delegate)) in
  let w2 := fst (step w_redeemed (OTx 501 (39 * E) [] Delegate)) in
  let w3 := fst (step w_rewarded (OTx 500 0 [Pay TokLs (2 * E)] UnDelegate)) in
  snd (step w_redeemed (OTx 501 (40 * E) [] Delegate)) = SOk
  /\ total_withdrawn w1 = 38832941176470588235 /\ pending_egld w1 = 40 * E - 38832941176470588235
  /\ snd (step w_redeemed (OTx 501 (39 * E) [] Delegate)) = SOk
  /\ total_withdrawn w2 = 37832941176470588235 /\ unstake_queue w2 = E
  /\ snd (step w_rewarded (OTx 500 0 [Pay TokLs (2 * E)] UnDelegate)) = SOk
  /\ egld_sent 500 w3 = 920000000000000000 /\ pending_egld w3 = E.
Proof. vm_compute. repeat split. Qed.

(** C18 Instant redemption without fee. *)
Theorem C18_instant_redemption : forall w u x,
  Reachable w -> c_active (w_cfg w) = true -> c_lstok (w_cfg w) = TIssued -> u <> SELF -> x <= ls_balance u w ->
  let e := egld_worth w x in
  0 < e -> pending_egld w = e \/ e + ONE_EGLD <= pending_egld w ->
  let o := OTx u 0 [Pay TokLs x] UnDelegate in let w' := fst (step w o) in
  snd (step w o) = SOk /\ egld_sent u w' = e /\ pending_egld w' + e = pending_egld w
  /\ unstake_queue w' = unstake_queue w /\ ust_unchanged w w' /\ ls_balance u w' + x = ls_balance u w.
Proof. exact instant_worth. Qed.
Print Assumptions C18_instant_redemption.

Example C18_case :
  Reachable w_deposit /\ c_active (w_cfg w_deposit) = true /\ 40 * E <= ls_balance 500 w_deposit
  /\ egld_worth w_deposit (40 * E) = 40 * E /\ c_lstok (w_cfg w_deposit) = TIssued /\ 40 * E + ONE_EGLD <= pending_egld w_deposit.
Proof. split; [exact w_deposit_reach|]. vm_compute. repeat split; discriminate. Qed.
