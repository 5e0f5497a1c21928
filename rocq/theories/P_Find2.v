(** P_Find2.v — properties C78 to C82, each false of the code as it stands: the
    refutation, and the part that holds. *)
From Verif Require Import Scenario L_Find2.

(** C78 A matured unstake token can be withdrawn. False: until an operator has
    collected from the providers the pot is empty and nothing can be withdrawn.
    Partial: the exact condition; missing: pots that are used up before the last
    payment is reached. *)
Theorem C78_matured_token_refuted :
  exists w u n r, ReachableClean w /\ quiet w /\ u <> SELF /\ c_active (w_cfg w) = true /\ release_epoch n w = Some r /\ r <= w_epoch w
    /\ 0 < ust_of n u w /\ ust_of_users w <= unbonding w
    /\ forall eg p pays, snd (step w (OTx u eg (p :: pays) Withdraw)) <> SOk.
Proof. exact matured_unpaid. Qed.
Print Assumptions C78_matured_token_refuted.

Theorem C78_matured_token_partial : forall w u pays,
  Reachable w ->
  snd (step w (OTx u 0 pays Withdraw)) = SOk
  <-> u <> SELF /\ c_lstok (w_cfg w) = TIssued /\ c_active (w_cfg w) = true /\ c_usttok (w_cfg w) = TIssued
    /\ Forall (fun q => 0 < y_amt q /\ exists n r, y_tok q = TokUst n /\ release_epoch n w = Some r /\ r <= w_epoch w) pays
    /\ (forall n, pay_of_nonce n pays <= ust_of n u w)
    /\ (pays = [] \/ pay_total (removelast pays) < total_withdrawn w).
Proof. exact withdraw_iff. Qed.
Print Assumptions C78_matured_token_partial.

(** Case: with 20 EGLD in the pot, 15 and 23 are accepted together, in this order
    only. *)
Definition w_order : world := run w0 order_ops.
Example C78_case :
  Reachable w_order /\ total_withdrawn w_order = 20 * E /\ 38 * E <= ust_of 1 500 w_order
  /\ snd (step w_order (OTx 500 0 [Pay (TokUst 1) (15 * E); Pay (TokUst 1) (23 * E)] Withdraw)) = SOk
  /\ snd (step w_order (OTx 500 0 [Pay (TokUst 1) (23 * E); Pay (TokUst 1) (15 * E)] Withdraw)) <> SOk.
Proof. split; [apply reach_run, w0_reach|]. vm_compute. repeat split; discriminate. Qed.

(** C79 Matured tokens are paid in the order of their release. False: whoever comes
    first empties the pot. Partial: once the pot covers all matured tokens it goes on
    covering them while the epoch lasts, whatever anybody does, and each holder is
    paid in full; missing: a pot smaller than that. *)
Theorem C79_paid_in_order_refuted :
  exists w u v n m r s a, ReachableClean w /\ u <> v /\ release_epoch n w = Some r /\ release_epoch m w = Some s
    /\ r < s /\ s <= w_epoch w /\ 0 < a /\ a <= ust_of n u w /\ a <= ust_of m v w
    /\ snd (step w (OTx u 0 [Pay (TokUst n) a] Withdraw)) = SOk
    /\ egld_sent u (fst (step w (OTx u 0 [Pay (TokUst n) a] Withdraw))) = a
    /\ snd (step w (OTx v 0 [Pay (TokUst m) a] Withdraw)) = SOk
    /\ egld_sent v (fst (step w (OTx v 0 [Pay (TokUst m) a] Withdraw))) = a
    /\ forall eg p pays, snd (step (fst (step w (OTx v 0 [Pay (TokUst m) a] Withdraw))) (OTx u eg (p :: pays) Withdraw)) <> SOk.
Proof. exact later_first. Qed.
Print Assumptions C79_paid_in_order_refuted.

Theorem C79_paid_in_order_partial : forall w os u pays,
  Reachable w -> matured_tokens w <= total_withdrawn w -> always waits w os -> Forall same_epoch os ->
  let v := run w os in
  u <> SELF -> c_lstok (w_cfg v) = TIssued -> c_active (w_cfg v) = true -> c_usttok (w_cfg v) = TIssued ->
  Forall (fun p => 0 < y_amt p /\ exists n r, y_tok p = TokUst n /\ release_epoch n v = Some r /\ r <= w_epoch v) pays ->
  (forall n, pay_of_nonce n pays <= ust_of n u v) ->
  snd (step v (OTx u 0 pays Withdraw)) = SOk
  /\ egld_sent u (fst (step v (OTx u 0 pays Withdraw))) = pay_total pays.
Proof. exact covered_served. Qed.
Print Assumptions C79_paid_in_order_partial.

(** Case: in [w_ready] the pot covers the 38.8 EGLD; half of the tokens change hands,
    the new holder withdraws, others deposit and redeem, and the rest is paid. *)
Definition scramble_ops : list op :=
  [OMoveUst 1 500 700 (20 * E); OTx 700 0 [Pay (TokUst 1) (20 * E)] Withdraw;
   OTx 600 (5 * E) [] Delegate; OTx 600 0 [Pay TokLs (4 * E)] UnDelegate].
Example C79_case :
  Reachable w_ready /\ matured_tokens w_ready <= total_withdrawn w_ready /\ always waits w_ready scramble_ops
  /\ Forall same_epoch scramble_ops /\ forallb ok_b (statuses w_ready scramble_ops) = true
  /\ matured_tokens w_ready = 38832941176470588235
  /\ release_epoch 1 (run w_ready scramble_ops) = Some 15 /\ w_epoch (run w_ready scramble_ops) = 15
  /\ ust_of 1 500 (run w_ready scramble_ops) = 18832941176470588235
  /\ egld_sent 500 (fst (step (run w_ready scramble_ops) (OTx 500 0 [Pay (TokUst 1) 18832941176470588235] Withdraw)))
     = 18832941176470588235.
Proof.
  split; [exact w_ready_reach|]. split; [vm_compute; discriminate|]. split; [apply waits_sound; vm_compute; reflexivity|].
  split; [repeat constructor|]. vm_compute. repeat split.
Qed.

(** C80 New unstake tokens are never released in the past. False: the addition of
    the unbonding period wraps around. Partial: as long as the sum fits in 64 bits;
    missing: longer periods, which setUnbondPeriod accepts. *)
Theorem C80_release_refuted :
  exists w u x n r, ReachableClean w /\ snd (step w (OTx u 0 [Pay TokLs x] UnDelegate)) = SOk
    /\ ust_of n u w = 0 /\ 0 < ust_of n u (fst (step w (OTx u 0 [Pay TokLs x] UnDelegate)))
    /\ release_epoch n (fst (step w (OTx u 0 [Pay TokLs x] UnDelegate))) = Some r /\ r < w_epoch w
    /\ 0 < c_unbond (w_cfg w).
Proof. exact release_in_past. Qed.
Print Assumptions C80_release_refuted.

Theorem C80_release_partial : forall w u eg pays n,
  Reachable w -> w_epoch w + c_unbond (w_cfg w) < 2 ^ 64 -> snd (step w (OTx u eg pays UnDelegate)) = SOk ->
  let w' := fst (step w (OTx u eg pays UnDelegate)) in
  ust_of n u w < ust_of n u w' -> release_epoch n w' = Some (w_epoch w + c_unbond (w_cfg w)).
Proof. exact release_not_past. Qed.
Print Assumptions C80_release_partial.

Example C80_case :
  let w' := fst (step w_rewarded (OTx 500 0 [Pay TokLs (40 * E)] UnDelegate)) in
  Reachable w_rewarded /\ w_epoch w_rewarded + c_unbond (w_cfg w_rewarded) < 2 ^ 64
  /\ snd (step w_rewarded (OTx 500 0 [Pay TokLs (40 * E)] UnDelegate)) = SOk
  /\ ust_of 1 500 w_rewarded < ust_of 1 500 w' /\ release_epoch 1 w' = Some 15.
Proof. split; [exact w_rewarded_reach|]. vm_compute. repeat split. Qed.

(** C81 Every accepted maximum number of selected providers keeps un-delegation
    working. False: multiples of 2^32 select nobody and values from 2^64 on abort.
    Partial: values below 2^32 under the conditions of C36; missing: larger ones, for which
    C81_limit_exactly in P_Exact.v says which work. *)
Theorem C81_max_selected_refuted :
  exists w u x y, ReachableClean w /\ operator u w /\ quiet w
    /\ snd (step w (OTx u 0 [] (UnDelegatePending None))) = SOk
    /\ snd (step w (OTx u 0 [] (SetMaxSelected x))) = SOk
    /\ snd (step (fst (step w (OTx u 0 [] (SetMaxSelected x)))) (OTx u 0 [] (UnDelegatePending None))) = SErr EBadDelegationAddress
    /\ snd (step w (OTx u 0 [] (SetMaxSelected y))) = SOk
    /\ snd (step (fst (step w (OTx u 0 [] (SetMaxSelected y)))) (OTx u 0 [] (UnDelegatePending None))) = SErr EUnwrap.
Proof. exact max_selected_blocks. Qed.
Print Assumptions C81_max_selected_refuted.

Theorem C81_max_selected_partial : forall w u m x o sc,
  Reachable w -> snd (step w (OTx m 0 [] (SetMaxSelected x))) = SOk -> x < 2 ^ 32 ->
  operator u w -> fits_queue o (unstake_queue w) ->
  c_score (w_cfg w) = Some sc -> distinct_bounds sc -> N.of_nat (length (w_ul w)) < 2 ^ 32 ->
  (forall c p, c ∈ w_ul w -> w_pv w !! c = Some p -> net_zero_or_one p) ->
  (exists c p, c ∈ w_ul w /\ w_pv w !! c = Some p /\ 0 < net_stake p) ->
  snd (step (fst (step w (OTx m 0 [] (SetMaxSelected x)))) (OTx u 0 [] (UnDelegatePending o))) = SOk.
Proof. exact max_selected_works. Qed.
Print Assumptions C81_max_selected_partial.

Example C81_case :
  Reachable w_redeemed /\ snd (step w_redeemed (OTx 100 0 [] (SetMaxSelected 1))) = SOk
  /\ snd (step w_redeemed (OTx 100 0 [] (SetMaxSelected (2 ^ 32 - 1)))) = SOk
  /\ operator 100 w_redeemed /\ fits_queue None (unstake_queue w_redeemed)
  /\ c_score (w_cfg w_redeemed) = Some scfg_default /\ distinct_bounds scfg_default /\ w_ul w_redeemed = [1000; 1001]
  /\ (exists p, w_pv w_redeemed !! 1000 = Some p /\ net_zero_or_one p /\ 0 < net_stake p)
  /\ (exists p, w_pv w_redeemed !! 1001 = Some p /\ net_zero_or_one p /\ 0 < net_stake p).
Proof.
  split; [exact w_redeemed_reach|]. do 2 (split; [vm_compute; reflexivity|]).
  split; [split_and!; [discriminate|left; vm_compute; reflexivity|vm_compute; reflexivity..]|].
  split; [split; [vm_compute; discriminate|exact I]|]. split; [vm_compute; reflexivity|].
  split; [split; vm_compute; discriminate|]. split; [vm_compute; reflexivity|].
  split; eexists; (split; [vm_compute; reflexivity|]); (split; [right; vm_compute; discriminate|vm_compute; reflexivity]).
Qed.

(** C82 A successful unDelegatePending un-delegates something. False: if the only
    stake exceeds the queue by less than 1 EGLD the call succeeds and does nothing.
    Partial: if the first provider with net stake holds at most the amount, or at
    least 1 EGLD more, at least 1 EGLD leaves the queue; missing: a first provider
    that exceeds the amount by less than 1 EGLD. *)
Theorem C82_batch_moves_refuted :
  exists w u c, ReachableClean w /\ operator u w /\ quiet w /\ w_ul w = [c] /\ ONE_EGLD <= unstake_queue w
    /\ unstake_queue w <= net_stake (rec w c)
    /\ snd (step w (OTx u 0 [] (UnDelegatePending None))) = SOk
    /\ w_calls (fst (step w (OTx u 0 [] (UnDelegatePending None)))) = []
    /\ unstake_queue (fst (step w (OTx u 0 [] (UnDelegatePending None)))) = unstake_queue w.
Proof. exact idle_batch. Qed.
Print Assumptions C82_batch_moves_refuted.

Theorem C82_batch_moves_partial : forall w u eg pays o c l,
  Reachable w -> snd (step w (OTx u eg pays (UnDelegatePending o))) = SOk ->
  N.of_nat (length (w_ul w)) < 2 ^ 32 ->
  let w' := fst (step w (OTx u eg pays (UnDelegatePending o))) in
  let a := default (unstake_queue w) o in
  holders w = c :: l ->
  net_stake (rec w c) <= a \/ a + ONE_EGLD <= net_stake (rec w c) ->
  unstake_queue w' + ONE_EGLD <= unstake_queue w.
Proof. exact batch_moves. Qed.
Print Assumptions C82_batch_moves_partial.

(** Case: both alternatives, with requests of 26 and of 2 EGLD while the first
    provider has a net stake of 25.04 EGLD. *)
Example C82_case :
  Reachable w_redeemed /\ holders w_redeemed = [1000; 1001] /\ net_stake (rec w_redeemed 1000) = 25038217711350872307
  /\ snd (step w_redeemed (OTx 100 0 [] (UnDelegatePending (Some (26 * E))))) = SOk
  /\ snd (step w_redeemed (OTx 100 0 [] (UnDelegatePending (Some (2 * E))))) = SOk
  /\ w_calls (fst (step w_redeemed (OTx 100 0 [] (UnDelegatePending (Some (2 * E)))))) = [KUndel 1000 (2 * E)].
Proof. split; [exact w_redeemed_reach|]. vm_compute. repeat split. Qed.
