(** P_Find.v — properties C46 to C60. Each is false of the contract: the theorem
    ending in [_refuted] exhibits a reachable counterexample, the theorem ending
    in [_partial] is the part that holds. The comment above each pair gives the
    full property and what the partial theorem leaves out. *)
From Verif Require Import L_Tight.

(** C46 claimFees is safe under re-entrance: whatever the accumulator calls during
    claimFees, LS supply = tokens in existence afterwards. False: the pool is
    written back from the copy read before the call. Partial: it holds exactly
    when the nested calls leave the number of tokens as it was; missing: nested
    calls that mint or burn. *)
Theorem C46_reentrance_refuted :
  exists w ops w', Reachable w
    /\ Forall (fun o => initiator o = Some (c_acc (w_cfg w))) ops
    /\ claim_fees_with (fun v => Ok (run v ops)) (set_log [] w) = Ok w'
    /\ ls_supply w' <> ls_in_existence w'.
Proof. exact reentrance_breaks. Qed.
Print Assumptions C46_reentrance_refuted.

Theorem C46_reentrance_partial : forall w ops w',
  Reachable w -> claim_fees_with (fun v => Ok (run v ops)) (set_log [] w) = Ok w' ->
  (ls_supply w' = ls_in_existence w' <-> ls_in_existence w' = ls_in_existence w)
  /\ w_pool w' = set_fees_res 0 (w_pool w).
Proof. exact reentrance_iff. Qed.
Print Assumptions C46_reentrance_partial.

Example C46_case : exists w', Reachable w_rewarded
  /\ claim_fees_with (fun v => Ok (run v [OMoveLs 200 500 0; OTx 200 0 [] (AddManagers [7])])) (set_log [] w_rewarded) = Ok w'
  /\ ls_in_existence w' = ls_in_existence w_rewarded /\ fees_reserve w_rewarded = 80000000000000000.
Proof.
  eexists (okget _). split; [exact w_rewarded_reach|]. split; [apply okget_ok; vm_compute; reflexivity|].
  vm_compute. split; reflexivity.
Qed.

(** C47 One provider cannot block delegation: no parameter choice of a provider
    admin makes delegatePending abort for everybody. False: a cap below the own
    net stake at the head of the list. Partial: choices that keep the cap at or
    above the net stake (or 0), with room at another provider. *)
Theorem C47_admin_blocks_refuted :
  exists w u c p total cap nodes apy elig,
    let w' := fst (step w (OTx u 0 [] (ChangeParams c total cap nodes apy elig))) in
    Reachable w /\ w_pv w !! c = Some p /\ p_admin p = u /\ u <> w_owner w /\ u ∉ c_mgrs (w_cfg w)
    /\ (exists v, snd (step w (OTx v 0 [] (DelegatePending None))) = SOk)
    /\ snd (step w (OTx u 0 [] (ChangeParams c total cap nodes apy elig))) = SOk
    /\ forall v eg pays o, snd (step w' (OTx v eg pays (DelegatePending o))) <> SOk.
Proof. exact admin_blocks. Qed.
Print Assumptions C47_admin_blocks_refuted.

Theorem C47_change_within_partial : forall w u eg pays c total cap nodes apy elig v o sc,
  let w' := fst (step w (OTx u eg pays (ChangeParams c total cap nodes apy elig))) in
  Reachable w -> snd (step w (OTx u eg pays (ChangeParams c total cap nodes apy elig))) = SOk ->
  operator v w -> fits_queue o (pending_egld w) ->
  c_score (w_cfg w) = Some sc -> distinct_bounds sc -> N.of_nat (length (w_dl w)) < 2 ^ 32 ->
  (forall d p, d ∈ w_dl w -> w_pv w !! d = Some p -> within_cap p) ->
  (exists d p, d <> c /\ d ∈ w_dl w /\ w_pv w !! d = Some p /\ has_room p) ->
  (forall p, w_pv w !! c = Some p -> elig = false \/ p_pun p <= p_staked p + p_pst p /\ (cap = 0 \/ net_stake p <= cap)) ->
  snd (step w' (OTx v 0 [] (DelegatePending o))) = SOk.
Proof. exact change_within. Qed.
Print Assumptions C47_change_within_partial.

Example C47_case :
  let p := Prov 78 (3 * E) (500 * E) 20 900 E 0 true 0 0 in
  Reachable w_turn /\ snd (step w_turn (OTx 78 0 [] (ChangeParams 1001 E E 20 900 true))) = SOk
  /\ operator 100 w_turn /\ fits_queue None (pending_egld w_turn)
  /\ c_score (w_cfg w_turn) = Some scfg_default /\ distinct_bounds scfg_default /\ N.of_nat (length (w_dl w_turn)) < 2 ^ 32
  /\ w_dl w_turn = [1001; 1000]
  /\ w_pv w_turn !! 1001 = Some p /\ within_cap p /\ net_stake p <= E
  /\ (exists q, w_pv w_turn !! 1000 = Some q /\ has_room q).
Proof.
  cbv zeta. split; [apply reach_run, w_deposit_reach|]. split; [vm_compute; reflexivity|].
  split; [split_and!; [discriminate|left; vm_compute; reflexivity|vm_compute; reflexivity..]|].
  split; [split; [vm_compute; discriminate|exact I]|]. split; [vm_compute; reflexivity|].
  split; [split; vm_compute; discriminate|]. split; [vm_compute; reflexivity|]. split; [vm_compute; reflexivity|].
  split; [vm_compute; reflexivity|].
  split; [right; split; [vm_compute; discriminate|right; vm_compute; discriminate]|]. split; [vm_compute; discriminate|].
  eexists. split; [vm_compute; reflexivity|]. split_and!; [reflexivity|vm_compute; discriminate|left; reflexivity].
Qed.

(** C48 The whitelist limit holds: never more listed providers than
    maxDelegationAddresses. False: the check is [<=] and sees only finished
    whitelistings; here the limit is 1 and 4 are listed. Partial: it
    is exceeded by at most the number of whitelistings that were ever started side
    by side (one at a time: by one), counted from the highest limit ever set;
    missing: the exact limit. *)
Theorem C48_limit_refuted :
  exists w os, Deployed w /\ Forall (eq SOk) (statuses w os)
    /\ Forall (fun o => match o with OTx _ _ _ (SetMaxAddresses _) => False | _ => True end) os
    /\ c_maxaddr (w_cfg w) = 1 /\ N.of_nat (length (w_dl (run w os))) = 4.
Proof. exact limit_exceeded. Qed.
Print Assumptions C48_limit_refuted.

Theorem C48_limit_partial : forall M K w os,
  Deployed w -> along (whitelisting_within M K) w os ->
  N.of_nat (length (w_dl (run w os))) + whitelisting (run w os) <= M + K.
Proof. exact lim_history. Qed.
Print Assumptions C48_limit_partial.

(** No smaller bound would do: for every limit and every number side by side
    there is a history without a failure that lists [M + K] providers. *)
Theorem C48_bound_reached : forall M K, 1 <= M < 2 ^ 32 -> 1 <= K ->
  exists w os, Deployed w /\ along (whitelisting_within M K) w os /\ Forall (eq SOk) (statuses w os)
    /\ c_maxaddr (w_cfg (run w os)) = M /\ N.of_nat (length (w_dl (run w os))) = M + K.
Proof. exact limit_reached. Qed.
Print Assumptions C48_bound_reached.
Example C48_bound_case : exists w os, Deployed w /\ c_maxaddr (w_cfg (run w os)) = 2 ^ 20 /\ N.of_nat (length (w_dl (run w os))) = 2 ^ 20 + 700.
Proof. destruct (C48_bound_reached (2 ^ 20) 700) as (w & os & H1 & _ & _ & H2 & H3); [split; vm_compute; (reflexivity || discriminate)|vm_compute; discriminate|]. exists w, os. done. Qed.

(** Case: the bound is reached: limit 1, whitelistings one at a time, two listed;
    and two at a time, the limit raised to 2 in between, four listed. *)
Definition two_ops : list op :=
  firstn 8 setup_ops ++ [OTx 100 E [] (Whitelist 1000 77 0 0 10 800); OExec 0 (Some 0); OCb 0;
                         OTx 100 E [] (Whitelist 1001 77 0 0 10 800); OExec 0 (Some 0); OCb 0].
Definition four_ops : list op :=
  two_ops ++ [OTx 100 0 [] (SetMaxAddresses 2); OTx 100 E [] (Whitelist 1002 77 0 0 10 800); OTx 100 E [] (Whitelist 1003 77 0 0 10 800);
              OExec 0 (Some 0); OExec 0 (Some 0); OCb 1; OCb 0; OTx 100 0 [] (SetMaxAddresses 1)].
Example C48_case : Deployed w0_one
  /\ along (whitelisting_within 1 1) w0_one two_ops /\ length (w_dl (run w0_one two_ops)) = 2%nat
  /\ along (whitelisting_within 2 2) w0_one four_ops /\ length (w_dl (run w0_one four_ops)) = 4%nat.
Proof.
  split; [exact w0_one_deployed|]. split; [vm_compute; repeat split; discriminate|]. split; [vm_compute; reflexivity|].
  split; [vm_compute; repeat split; discriminate|vm_compute; reflexivity].
Qed.

(** C49 Deposits cannot be locked out by rewards. False: one unit sent to
    addRewards by anybody while no LS token exists blocks every deposit for
    good. Partial: if rewards come only while LS tokens exist, there are LS
    tokens whenever there is a reserve, and deposits worth at least one LS unit
    succeed; missing: rewards before the first deposit or after the last exit. *)
Theorem C49_lock_out_refuted :
  exists w u a, let w' := fst (step w (OTx u a [] AddRewards)) in
    Reachable w /\ u <> w_owner w /\ u ∉ c_mgrs (w_cfg w) /\ a = 1
    /\ (forall v b, v <> SELF -> ONE_EGLD <= b -> snd (step w (OTx v b [] Delegate)) = SOk)
    /\ snd (step w (OTx u a [] AddRewards)) = SOk
    /\ forall os v b pays, ls_supply (run w' os) = 0 /\ snd (step (run w' os) (OTx v b pays Delegate)) <> SOk.
Proof. exact locked_out. Qed.
Print Assumptions C49_lock_out_refuted.

Theorem C49_supply_partial : forall w os,
  Deployed w -> along (fun v o => brings_rewards v o -> 0 < ls_supply v) w os ->
  0 < virtual_reserve (run w os) -> 0 < ls_supply (run w os).
Proof. exact supply_stays. Qed.
Print Assumptions C49_supply_partial.

Theorem C49_deposits_partial : forall w os u a,
  Deployed w -> along (fun v o => brings_rewards v o -> 0 < ls_supply v) w os ->
  let v := run w os in
  c_lstok (w_cfg v) = TIssued -> c_active (w_cfg v) = true -> u <> SELF -> ONE_EGLD <= a ->
  virtual_reserve v <= a * ls_supply v ->
  snd (step v (OTx u a [] Delegate)) = SOk.
Proof. exact deposits_stay_open. Qed.
Print Assumptions C49_deposits_partial.

Definition open_b (w : world) (o : op) : bool :=
  match o with
  | OTx _ _ _ AddRewards => 0 <? ls_supply w
  | OCb i => match nth_error (w_res w) i with Some (KClaim _, RDone _) => 0 <? ls_supply w | _ => true end
  | _ => true
  end.
Definition bonus_ops : list op := setup_ops ++ deposit_ops ++ stake_ops ++ reward_ops ++ [OTx 600 (7 * E) [] AddRewards].
Example C49_case :
  let v := run w0 bonus_ops in
  Deployed w0 /\ along (fun v o => brings_rewards v o -> 0 < ls_supply v) w0 bonus_ops
  /\ c_lstok (w_cfg v) = TIssued /\ c_active (w_cfg v) = true /\ virtual_reserve v <= E * ls_supply v
  /\ virtual_reserve v = 110920000000000000000.
Proof.
  cbv zeta. split; [exact w0_is_deployed|]. split.
  - apply (along_sound open_b); [|vm_compute; reflexivity]. intros v o H.
    destruct o as [? ? ? []| | | | | | | | |]; cbn in *; try done; [intros _; by apply N.ltb_lt|].
    destruct (nth_error (w_res v) i) as [[[] []]|]; try done. intros _. by apply N.ltb_lt.
  - vm_compute. repeat split; discriminate.
Qed.

(** C50 An accepted scoring configuration has weights that sum to 100. False: the
    sum is taken in 64-bit arithmetic that wraps around. Partial: the sum is 100
    modulo 2^64; missing: configurations whose sum overflows. *)
Theorem C50_weights_refuted :
  exists w u s, Reachable w /\ k_stake_w s < 2 ^ 64 /\ k_apy_w s < 2 ^ 64 /\ k_nodes_w s < 2 ^ 64
    /\ snd (step w (OTx u 0 [] (SetScoringConfig s))) = SOk
    /\ k_stake_w s + k_apy_w s + k_nodes_w s <> 100.
Proof. exact wrapped_weights. Qed.
Print Assumptions C50_weights_refuted.

Theorem C50_weights_partial : forall w u eg pays s,
  snd (step w (OTx u eg pays (SetScoringConfig s))) = SOk ->
  (k_stake_w s + k_apy_w s + k_nodes_w s) mod 2 ^ 64 = 100
  /\ (k_stake_w s + k_apy_w s + k_nodes_w s < 2 ^ 64 -> k_stake_w s + k_apy_w s + k_nodes_w s = 100).
Proof. exact weights. Qed.
Print Assumptions C50_weights_partial.

Example C50_case : snd (step w_staked (OTx 100 0 [] (SetScoringConfig scfg_default))) = SOk
  /\ k_stake_w scfg_default + k_apy_w scfg_default + k_nodes_w scfg_default < 2 ^ 64.
Proof. vm_compute. split; reflexivity. Qed.

(** C51 Replies delivered out of order never abort a callback or lose track of
    un-delegated EGLD. False: an un-delegation answered before the delegation it
    draws on aborts, and the unbonding EGLD is recorded nowhere. Partial: replies
    to delegations and rejected un-delegations never abort in any order, accepted
    un-delegations are recorded exactly when the recorded stake covers them;
    missing: accepted un-delegations that overtake a delegation (C29 covers
    delivery in order). *)
Theorem C51_order_refuted :
  exists w os c, Reachable w /\ Forall (fun s => s = SOk \/ cb_failed s) (statuses w os)
    /\ Exists cb_failed (statuses w os)
    /\ unanswered (run w os) = []
    /\ 0 < snd (live_of (run w os) c) /\ snd (recorded (run w os) c) = 0 /\ unbonding (run w os) = 0.
Proof. exact disorder. Qed.
Print Assumptions C51_order_refuted.

Theorem C51_order_partial : forall w i c a r,
  Reachable w ->
  (nth_error (w_res w) i = Some (KDeleg c a, r) -> snd (step w (OCb i)) = SOk)
  /\ (nth_error (w_res w) i = Some (KUndel c a, RFail) -> snd (step w (OCb i)) = SOk)
  /\ (nth_error (w_res w) i = Some (KUndel c a, r) -> r <> RFail ->
      (snd (step w (OCb i)) = SOk <-> a <= fst (recorded w c))
      /\ (a <= fst (recorded w c) -> unbonding (fst (step w (OCb i))) = unbonding w + a
          /\ snd (recorded (fst (step w (OCb i))) c) = snd (recorded w c) + a)).
Proof. exact any_order. Qed.
Print Assumptions C51_order_partial.

Example C51_case :
  let w := run w_deposit (firstn 7 disorder_ops) in
  Reachable w /\ length (w_res w) = 4%nat
  /\ nth_error (w_res w) 0 = Some (KDeleg 1000 24038217711350872307, RDone 0)
  /\ nth_error (w_res w) 2 = Some (KUndel 1000 25038217711350872307, RDone 0)
  /\ fst (recorded w 1000) = E
  /\ 25038217711350872307 <= fst (recorded (fst (step w (OCb 0))) 1000).
Proof. cbv zeta. split; [apply reach_run, w_deposit_reach|]. vm_compute. repeat split; try reflexivity; discriminate. Qed.

(** C52 For every fee value accepted by setFees the reward callback succeeds. False:
    fees above 100% are accepted; then the rewards arrive in no pot. Partial: the
    callback succeeds exactly when the fee does not exceed the rewards; missing:
    fees above 100%. *)
Theorem C52_fee_refuted :
  exists w x os i, let w1 := fst (step w (OTx (w_owner w) 0 [] (SetFees x))) in
    Reachable w /\ snd (step w (OTx (w_owner w) 0 [] (SetFees x))) = SOk
    /\ (exists l v, nth_error (w_res (run w1 os)) i = Some (KClaim l, RDone v) /\ 0 < v)
    /\ cb_failed (snd (step (run w1 os) (OCb i)))
    /\ 0 < unaccounted (fst (step (run w1 os) (OCb i))) /\ unaccounted (run w1 os) = 0.
Proof. exact fee_too_high. Qed.
Print Assumptions C52_fee_refuted.

Theorem C52_fee_partial : forall w i l v,
  Reachable w -> nth_error (w_res w) i = Some (KClaim l, RDone v) ->
  snd (step w (OCb i)) = SOk <-> v * c_fees (w_cfg w) / 10000 <= v.
Proof. exact reward_iff. Qed.
Print Assumptions C52_fee_partial.

Example C52_case : Reachable (run w_staked fee_ops)
  /\ nth_error (w_res (run w_staked fee_ops)) 0 = Some (KClaim [1000; 1001], RDone (2 * E))
  /\ 2 * E * c_fees (w_cfg (run w_staked fee_ops)) / 10000 = 80000000000000000.
Proof. split; [apply reach_run, w_staked_reach|]. vm_compute. split; reflexivity. Qed.

(** C53 No successful user call leaves EGLD sent with it unaccounted for. False:
    withdraw accepts EGLD and keeps it. Partial: exact change for every endpoint;
    only withdraw called with EGLD adds to what is unaccounted. *)
Theorem C53_withdraw_refuted :
  exists w u a, Reachable w /\ snd (step w (OTx u a [] Withdraw)) = SOk /\ 0 < a
    /\ egld_sent u (fst (step w (OTx u a [] Withdraw))) = 0
    /\ w_pool (fst (step w (OTx u a [] Withdraw))) = w_pool w
    /\ unaccounted (fst (step w (OTx u a [] Withdraw))) = unaccounted w + a.
Proof. exact withdraw_swallows. Qed.
Print Assumptions C53_withdraw_refuted.

Theorem C53_accounted_partial : forall w u eg pays ep,
  Reachable w -> snd (step w (OTx u eg pays ep)) = SOk ->
  unaccounted (fst (step w (OTx u eg pays ep)))
  = unaccounted w + match ep with Withdraw => eg | _ => 0 end.
Proof. exact unaccounted_tx. Qed.
Print Assumptions C53_accounted_partial.

Example C53_case : Reachable w_redeemed /\ snd (step w_redeemed (OTx 501 (7 * E) [] Delegate)) = SOk
  /\ snd (step w_staked (OTx 501 (2 * E) [] (Whitelist 1005 1 0 0 1 1))) <> SOk
  /\ snd (step w_staked (OTx 100 (2 * E) [] (Whitelist 1005 1 0 0 1 1))) = SOk.
Proof. split; [exact w_redeemed_reach|]. vm_compute. repeat split; discriminate. Qed.

(** C54 A non-empty un-delegation queue in a quiet active contract with enough stake
    can be processed. False: what a batch leaves over can be less than 1 EGLD and
    then nothing can be un-delegated until somebody redeems more. Partial: a queue
    of at least 1 EGLD with net stakes of 0 or at least 1 EGLD; missing: smaller
    queues and smaller net stakes. *)
Theorem C54_queue_refuted :
  exists w u c p, ReachableClean w /\ operator u w /\ unanswered w = [] /\ 0 < unstake_queue w
    /\ c ∈ w_ul w /\ w_pv w !! c = Some p /\ unstake_queue w + ONE_EGLD <= p_staked p
    /\ (exists s, c_score (w_cfg w) = Some s /\ distinct_bounds s)
    /\ forall v eg pays o, snd (step w (OTx v eg pays (UnDelegatePending o))) <> SOk.
Proof. exact stuck_queue. Qed.
Print Assumptions C54_queue_refuted.

Theorem C54_queue_partial : forall w u o sc,
  Reachable w -> operator u w -> fits_queue o (unstake_queue w) ->
  c_score (w_cfg w) = Some sc -> distinct_bounds sc -> N.of_nat (length (w_ul w)) < 2 ^ 32 ->
  c_maxsel (w_cfg w) < 2 ^ 64 -> c_maxsel (w_cfg w) mod 2 ^ 32 <> 0 ->
  (forall c p, c ∈ w_ul w -> w_pv w !! c = Some p -> net_zero_or_one p) ->
  (exists c p, c ∈ w_ul w /\ w_pv w !! c = Some p /\ 0 < net_stake p) ->
  snd (step w (OTx u 0 [] (UnDelegatePending o))) = SOk.
Proof. exact queue_moves. Qed.
Print Assumptions C54_queue_partial.

Example C54_case :
  Reachable w_redeemed /\ operator 100 w_redeemed /\ fits_queue None (unstake_queue w_redeemed)
  /\ c_score (w_cfg w_redeemed) = Some scfg_default /\ distinct_bounds scfg_default
  /\ N.of_nat (length (w_ul w_redeemed)) < 2 ^ 32 /\ c_maxsel (w_cfg w_redeemed) = 20
  /\ w_ul w_redeemed = [1000; 1001]
  /\ (exists p, w_pv w_redeemed !! 1000 = Some p /\ net_zero_or_one p /\ 0 < net_stake p)
  /\ (exists p, w_pv w_redeemed !! 1001 = Some p /\ net_zero_or_one p /\ 0 < net_stake p).
Proof.
  split; [exact w_redeemed_reach|].
  split; [split_and!; [discriminate|left; vm_compute; reflexivity|vm_compute; reflexivity..]|].
  split; [split; [vm_compute; discriminate|exact I]|]. split; [vm_compute; reflexivity|].
  split; [split; vm_compute; discriminate|]. do 3 (split; [vm_compute; reflexivity|]).
  split; eexists; (split; [vm_compute; reflexivity|]); (split; [right; vm_compute; discriminate|vm_compute; reflexivity]).
Qed.

(** C55 After any provider failures the batch endpoints do not abort on arithmetic.
    False: a delegation rejected after an un-delegation that counted on it leaves
    less than 1 EGLD at a provider; from then on every unDelegatePending aborts.
    Partial: un-delegation in histories in which no provider rejects a delegation;
    missing: rejected delegations. *)
Theorem C55_failure_refuted :
  exists w u c p, ReachableClean w /\ operator u w /\ unanswered w = [] /\ ONE_EGLD <= unstake_queue w
    /\ c ∈ w_ul w /\ w_pv w !! c = Some p /\ unstake_queue w + ONE_EGLD <= p_staked p
    /\ (exists s, c_score (w_cfg w) = Some s /\ distinct_bounds s)
    /\ snd (step w (OTx u 0 [] (UnDelegatePending None))) = SErr EUnderflow
    /\ forall v eg pays o, snd (step w (OTx v eg pays (UnDelegatePending o))) <> SOk.
Proof. exact failure_blocks. Qed.
Print Assumptions C55_failure_refuted.

Theorem C55_failure_partial : forall w os u o sc,
  Deployed w -> along (fun v o => ~ rejects_delegation v o) w os ->
  let v := run w os in
  operator u v -> fits_queue o (unstake_queue v) ->
  c_score (w_cfg v) = Some sc -> distinct_bounds sc -> N.of_nat (length (w_ul v)) < 2 ^ 32 ->
  c_maxsel (w_cfg v) < 2 ^ 64 -> c_maxsel (w_cfg v) mod 2 ^ 32 <> 0 ->
  (exists c p, c ∈ w_ul v /\ w_pv v !! c = Some p /\ 0 < net_stake p) ->
  snd (step v (OTx u 0 [] (UnDelegatePending o))) = SOk.
Proof. exact no_rejection_works. Qed.
Print Assumptions C55_failure_partial.

Definition accepts_b (w : world) (o : op) : bool :=
  match o with
  | OExec i None => match nth_error (w_calls w) i with Some (KDeleg _ _) => false | _ => true end
  | _ => true
  end.
Definition mixed_ops : list op :=
  setup_ops ++ deposit_ops ++ stake_ops ++ redeem_ops
  ++ [OTx 100 0 [] (UnDelegatePending (Some (20 * E))); OExec 0 None; OCb 0].
Example C55_case :
  let v := run w0 mixed_ops in
  Deployed w0 /\ along (fun v o => ~ rejects_delegation v o) w0 mixed_ops
  /\ operator 100 v /\ fits_queue None (unstake_queue v) /\ w_res v = []
  /\ c_score (w_cfg v) = Some scfg_default /\ distinct_bounds scfg_default /\ N.of_nat (length (w_ul v)) = 2
  /\ c_maxsel (w_cfg v) = 20
  /\ (exists c p, c ∈ w_ul v /\ w_pv v !! c = Some p /\ 0 < net_stake p).
Proof.
  cbv zeta. split; [exact w0_is_deployed|]. split.
  { apply (along_sound accepts_b); [|vm_compute; reflexivity]. intros v o H. destruct o as [|i []| | | | | | | |]; try (cbn; tauto).
    cbn in *. destruct (nth_error (w_calls v) i) as [[]|]; cbn; tauto || done. }
  split; [split_and!; [discriminate|left; vm_compute; reflexivity|vm_compute; reflexivity..]|].
  split; [split; [vm_compute; discriminate|exact I]|]. split; [vm_compute; reflexivity|]. split; [vm_compute; reflexivity|].
  split; [split; vm_compute; discriminate|]. split; [vm_compute; reflexivity|]. split; [vm_compute; reflexivity|].
  exists 1000. destruct (w_pv (run w0 mixed_ops) !! 1000) as [p|] eqn:Ep; [|vm_compute in Ep; discriminate]. exists p.
  split; [apply existsb_in; vm_compute; reflexivity|]. split; [done|]. vm_compute in Ep. injection Ep as <-. vm_compute. reflexivity.
Qed.

(** C56 Recorded stake plus delegations in flight of a capped provider never exceed
    cap minus the stake reported by others, over any number of batches. False: the
    space is computed without the contract's own stake. Partial: each batch gives
    at most cap minus reported total, only to providers with 1 EGLD of room, so
    that the net stake stays below twice the cap (over whole histories:
    C56_cap_history_partial in P_Exact.v); missing: the cap itself. *)
Theorem C56_cap_refuted :
  exists w os c p p', Reachable w /\ Forall (eq SOk) (statuses w os)
    /\ Forall (fun o => match o with OTx _ _ _ (ChangeParams c' _ _ _ _ _) => c' <> c | _ => True end) os
    /\ w_pv w !! c = Some p /\ w_pv (run w os) !! c = Some p'
    /\ p_cap p' <> 0 /\ p_staked p + p_pst p + p_total p <= p_cap p
    /\ p_cap p' < p_staked p' + p_pst p' + p_total p'.
Proof. exact cap_exceeded. Qed.
Print Assumptions C56_cap_refuted.

Theorem C56_cap_partial : forall w u eg pays o c p p',
  Reachable w -> snd (step w (OTx u eg pays (DelegatePending o))) = SOk ->
  w_pv w !! c = Some p -> w_pv (fst (step w (OTx u eg pays (DelegatePending o)))) !! c = Some p' ->
  p_pst p' <> p_pst p -> p_cap p <> 0 ->
  p_pst p' <= p_pst p + (p_cap p - p_total p) /\ net_stake p + ONE_EGLD <= p_cap p
  /\ net_stake p' + p_total p + ONE_EGLD <= 2 * p_cap p.
Proof. exact cap_one_batch. Qed.
Print Assumptions C56_cap_partial.

Example C56_case :
  let w := run w_setup (firstn 3 twice_ops) in
  Reachable w /\ snd (step w (OTx 100 0 [] (DelegatePending None))) = SOk
  /\ w_pv w !! 1001 = Some (Prov 78 (3 * E) (500 * E) 20 900 E 0 true (490 * E) 0)
  /\ w_pv (fst (step w (OTx 100 0 [] (DelegatePending None)))) !! 1001
     = Some (Prov 78 (3 * E) (500 * E) 20 900 E 0 true (987 * E) 0).
Proof. cbv zeta. split; [apply reach_run, w_setup_reach|]. vm_compute. repeat split; reflexivity. Qed.

(** C57 The payment of a successful whitelisting is either returned or turned into
    LS tokens and recorded stake. False: before the LS token is issued both
    replies abort; a rejected payment stays in no pot, an accepted one is staked
    without a record. Partial: once the LS token is issued and the payment is
    worth an LS unit; missing: earlier whitelistings. *)
Theorem C57_payment_refuted :
  exists w os, Deployed w
    /\ statuses w os = [SOk; SOk; SOk; SOk; SCbFail ELsTokenNotIssued; SCbFail ELsTokenNotIssued]
    /\ history_sum (fun o s => match o, s with OTx _ a _ (Whitelist _ _ _ _ _ _), SOk => a | _, _ => 0 end) w os = 5 * E
    /\ unanswered (run w os) = []
    /\ egld_received 100 w os = 0 /\ ls_in_existence (run w os) = 0
    /\ (forall c, recorded (run w os) c = (0, 0)) /\ unaccounted (run w os) = 3 * E
    /\ live_of (run w os) 1000 = (2 * E, 0).
Proof. exact payment_stranded. Qed.
Print Assumptions C57_payment_refuted.

Theorem C57_payment_partial : forall w i c a u r,
  Reachable w -> c_lstok (w_cfg w) = TIssued -> nth_error (w_res w) i = Some (KWhite c a u, r) ->
  virtual_reserve w = 0 \/ virtual_reserve w <= a * ls_supply w ->
  let w' := fst (step w (OCb i)) in
  snd (step w (OCb i)) = SOk
  /\ ((r = RFail /\ w_pv w' !! c = None /\ egld_sent u w' = a /\ w_pool w' = w_pool w)
      \/ (r <> RFail /\ (exists p, w_pv w' !! c = Some p /\ p_staked p = a) /\ virtual_reserve w' = virtual_reserve w + a
          /\ exists m, 0 < m /\ ls_balance u w' = ls_balance u w + m /\ ls_supply w' = ls_supply w + m)).
Proof. exact white_settled. Qed.
Print Assumptions C57_payment_partial.

Definition late_ops (out : option N) : list op := [OTx 100 (2 * E) [] (Whitelist 1002 79 0 0 5 700); OExec 0 out].
Example C57_case :
  Reachable (run w_rewarded (late_ops None)) /\ c_lstok (w_cfg (run w_rewarded (late_ops None))) = TIssued
  /\ nth_error (w_res (run w_rewarded (late_ops None))) 0 = Some (KWhite 1002 (2 * E) 100, RFail)
  /\ nth_error (w_res (run w_rewarded (late_ops (Some 0)))) 0 = Some (KWhite 1002 (2 * E) 100, RDone 0)
  /\ virtual_reserve (run w_rewarded (late_ops None)) <= 2 * E * ls_supply (run w_rewarded (late_ops None)).
Proof. split; [apply reach_run, w_rewarded_reach|]. vm_compute. repeat split; discriminate. Qed.

(** C58 With any accepted scoring configuration the batch endpoints do not abort on
    arithmetic. False: equal node or APY bounds are accepted and divide by zero.
    Partial: configurations with distinct bounds; missing: equal bounds. *)
Theorem C58_config_refuted :
  exists w u s, let w' := fst (step w (OTx u 0 [] (SetScoringConfig s))) in
    Reachable w /\ snd (step w (OTx u 0 [] (SetScoringConfig s))) = SOk
    /\ snd (step w (OTx u 0 [] (DelegatePending None))) = SOk
    /\ snd (step w' (OTx u 0 [] (DelegatePending None))) = SErr EDivZero.
Proof. exact config_breaks. Qed.
Print Assumptions C58_config_refuted.

Theorem C58_config_partial : forall w u eg pays s v o,
  let w' := fst (step w (OTx u eg pays (SetScoringConfig s))) in
  Reachable w -> snd (step w (OTx u eg pays (SetScoringConfig s))) = SOk -> distinct_bounds s -> operator v w ->
  (fits_queue o (pending_egld w) -> N.of_nat (length (w_dl w)) < 2 ^ 32 ->
   (forall c p, c ∈ w_dl w -> w_pv w !! c = Some p -> within_cap p) ->
   (exists c p, c ∈ w_dl w /\ w_pv w !! c = Some p /\ has_room p) ->
   snd (step w' (OTx v 0 [] (DelegatePending o))) = SOk)
  /\ (fits_queue o (unstake_queue w) -> N.of_nat (length (w_ul w)) < 2 ^ 32 ->
   c_maxsel (w_cfg w) < 2 ^ 64 -> c_maxsel (w_cfg w) mod 2 ^ 32 <> 0 ->
   (forall c p, c ∈ w_ul w -> w_pv w !! c = Some p -> net_zero_or_one p) ->
   (exists c p, c ∈ w_ul w /\ w_pv w !! c = Some p /\ 0 < net_stake p) ->
   snd (step w' (OTx v 0 [] (UnDelegatePending o))) = SOk).
Proof. exact config_works. Qed.
Print Assumptions C58_config_partial.

Example C58_case :
  let s := Scfg 10 100 500 1000 40 50 10 1000 3 4 in
  Reachable w_turn /\ snd (step w_turn (OTx 100 0 [] (SetScoringConfig s))) = SOk /\ distinct_bounds s /\ operator 100 w_turn
  /\ fits_queue (Some (98 * E)) (pending_egld w_turn).
Proof.
  cbv zeta. split; [apply reach_run, w_deposit_reach|]. split; [vm_compute; reflexivity|].
  split; [split; vm_compute; discriminate|].
  split; [split_and!; [discriminate|left; vm_compute; reflexivity|vm_compute; reflexivity..]|].
  split; [vm_compute; discriminate|]. split; [vm_compute; split; discriminate|right; vm_compute; discriminate].
Qed.

(** C59 With an eligible uncapped provider a successful delegatePending delegates
    something. False: a full provider at the head of the list is selected and
    given nothing, again and again. Partial: if every eligible listed provider has
    1 EGLD of reported room, at least 1 EGLD is delegated; missing: lists with a
    full provider. *)
Theorem C59_progress_refuted :
  exists w u c p, let w' := fst (step w (OTx u 0 [] (DelegatePending (Some ONE_EGLD)))) in
    ReachableClean w /\ snd (step w (OTx u 0 [] (DelegatePending (Some ONE_EGLD)))) = SOk
    /\ c ∈ w_dl w /\ w_pv w !! c = Some p /\ p_elig p = true /\ p_cap p = 0
    /\ ONE_EGLD <= pending_egld w /\ w_calls w' = w_calls w /\ pending_egld w' = pending_egld w /\ w_dl w' = w_dl w.
Proof. exact idle_batch. Qed.
Print Assumptions C59_progress_refuted.

Theorem C59_progress_partial : forall w u eg pays o,
  Reachable w -> snd (step w (OTx u eg pays (DelegatePending o))) = SOk -> N.of_nat (length (w_dl w)) < 2 ^ 32 ->
  (forall c p, c ∈ w_dl w -> w_pv w !! c = Some p -> p_elig p = true -> p_cap p = 0 \/ p_total p + ONE_EGLD <= p_cap p) ->
  pending_egld (fst (step w (OTx u eg pays (DelegatePending o)))) + ONE_EGLD <= pending_egld w.
Proof. exact progress. Qed.
Print Assumptions C59_progress_partial.

Example C59_case :
  Reachable w_turn /\ snd (step w_turn (OTx 100 0 [] (DelegatePending (Some (2 * E))))) = SOk
  /\ N.of_nat (length (w_dl w_turn)) < 2 ^ 32 /\ w_dl w_turn = [1001; 1000]
  /\ (exists p, w_pv w_turn !! 1001 = Some p /\ p_elig p = true /\ p_total p + ONE_EGLD <= p_cap p)
  /\ (exists p, w_pv w_turn !! 1000 = Some p /\ p_elig p = true /\ p_cap p = 0).
Proof.
  split; [apply reach_run, w_deposit_reach|]. do 3 (split; [vm_compute; reflexivity|]).
  split; eexists; (split; [vm_compute; reflexivity|]); vm_compute; split; try reflexivity; discriminate.
Qed.

(** C60 A successful deposit of at least 1 EGLD loses at most a negligible part of
    its value to rounding. False: with very few LS units in existence and a large
    reserve one unit is worth EGLDs; here 2.9 EGLD buy 2.2. Partial: the loss is
    less than the price of one LS unit, which C60_price_history_partial in P_Exact.v
    bounds; missing: pools with very few LS units. *)
Theorem C60_loss_refuted :
  exists w u a m e, let w' := fst (step w (OTx u a [] Delegate)) in
    ReachableClean w /\ ONE_EGLD <= a /\ snd (step w (OTx u a [] Delegate)) = SOk
    /\ ls_balance u w = 0 /\ ls_balance u w' = m /\ view_ls_value m w' = Ok e /\ 5 * e <= 4 * a.
Proof. exact dear_deposit. Qed.
Print Assumptions C60_loss_refuted.

Theorem C60_loss_partial : forall w u a pays,
  Reachable w -> snd (step w (OTx u a pays Delegate)) = SOk -> 0 < virtual_reserve w ->
  let w' := fst (step w (OTx u a pays Delegate)) in
  exists m, ls_balance u w' = ls_balance u w + m
    /\ a * ls_supply w' < (m + 1) * virtual_reserve w'.
Proof. exact deposit_loss. Qed.
Print Assumptions C60_loss_partial.

Example C60_case : Reachable w_rewarded /\ snd (step w_rewarded (OTx 501 (10 * E) [] Delegate)) = SOk
  /\ 0 < virtual_reserve w_rewarded
  /\ virtual_reserve w_rewarded < 2 * ls_supply w_rewarded.
Proof. split; [exact w_rewarded_reach|]. vm_compute. repeat split; reflexivity. Qed.
