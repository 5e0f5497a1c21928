(** P_Exact.v — exactly when the failures behind C49, C59, C81 and C82 occur, and C56
    and C60 over whole histories. *)
From Verif Require Import Scenario L_FindW L_Find2 L_Exact.

(** C49. Deposits are locked out for good exactly when there is a reserve without LS
    tokens: in every other state in which the contract is open somebody can deposit. *)
Theorem C49_locked_exactly : forall w,
  Reachable w -> c_lstok (w_cfg w) = TIssued -> c_active (w_cfg w) = true ->
  (forall os u a pays, snd (step (run w os) (OTx u a pays Delegate)) <> SOk)
  <-> ls_supply w = 0 /\ 0 < virtual_reserve w.
Proof. exact locked_exactly. Qed.
Print Assumptions C49_locked_exactly.

(** Cases: locked by one unit of rewards, and not locked. *)
Definition w_locked : world := fst (step w_tok (OTx 600 1 [] AddRewards)).
Example C49_exact_case :
  Reachable w_locked /\ c_lstok (w_cfg w_locked) = TIssued /\ c_active (w_cfg w_locked) = true
  /\ ls_supply w_locked = 0 /\ virtual_reserve w_locked = 1
  /\ Reachable w_rewarded /\ c_active (w_cfg w_rewarded) = true /\ ls_supply w_rewarded = 102 * E.
Proof.
  split; [apply reach_step, w_tok_reach|]. do 4 (split; [vm_compute; reflexivity|]).
  split; [exact w_rewarded_reach|]. vm_compute. repeat split.
Qed.

(** C56 over any number of batches and whatever else happens: with unchanged
    parameters and no failed un-delegation, the net stake of a listed capped provider
    plus what it reports plus 1 EGLD never rises above twice its cap, unless it was
    above from the start. Missing: the cap itself; and failed un-delegations, after
    which EGLD counted as leaving counts again. *)
Theorem C56_cap_history_partial : forall w os c p,
  Reachable w -> In c (w_dl w) -> w_pv w !! c = Some p -> p_cap p <> 0 -> along (cap_kept c) w os ->
  exists p', w_pv (run w os) !! c = Some p' /\ p_cap p' = p_cap p /\ p_total p' = p_total p
  /\ net_stake p' + p_total p + ONE_EGLD <= N.max (net_stake p + p_total p + ONE_EGLD) (2 * p_cap p).
Proof. exact cap_history. Qed.
Print Assumptions C56_cap_history_partial.

(** Case: cap 500, 3 reported, 1 staked; after two batches and both replies 981,
    of which 9 are then asked back. *)
Definition w_full : world := run w_setup (firstn 2 twice_ops).
Definition full_ops : list op :=
  skipn 2 twice_ops ++ [OExec 0 (Some 0); OExec 0 (Some 0); OCb 0; OCb 0; OTx 500 0 [Pay TokLs (20 * E)] UnDelegate;
    OTx 100 0 [] (UnDelegatePending None); OExec 0 (Some 0); OCb 0].
Definition kept_b (c : addr) (w : world) (o : op) : bool :=
  match o with
  | OTx _ _ _ (ChangeParams c' _ _ _ _ _) => negb (c' =? c)
  | OCb i => match nth_error (w_res w) i with Some (KUndel c' _, RFail) => negb (c' =? c) | _ => true end
  | _ => true
  end.
Example C56_history_case :
  Reachable w_full /\ In 1001 (w_dl w_full)
  /\ w_pv w_full !! 1001 = Some (Prov 78 (3 * E) (500 * E) 20 900 E 0 true 0 0)
  /\ along (cap_kept 1001) w_full full_ops /\ forallb ok_b (statuses w_full full_ops) = true
  /\ w_pv (run w_full full_ops) !! 1001 = Some (Prov 78 (3 * E) (500 * E) 20 900 (981 * E) 0 true 0 (9 * E)).
Proof.
  split; [apply reach_run, w_setup_reach|]. split; [vm_compute; tauto|]. split; [vm_compute; reflexivity|].
  split; [apply (along_sound (kept_b 1001)); [|vm_compute; reflexivity]|vm_compute; split; reflexivity].
  intros v o H. split.
  - intros u eg pays t k n y e ->. cbn in H. discriminate.
  - intros a (i & r & -> & Hi & Hr). cbn in H. rewrite Hi in H. destruct r; try discriminate Hr. cbn in H. discriminate.
Qed.

(** C59. A successful delegatePending delegates nothing exactly when every candidate
    either has less than 1 EGLD of reported room or a share below 1 EGLD; otherwise it
    delegates at least 1 EGLD. *)
Theorem C59_idle_exactly : forall w u eg pays o sc,
  Reachable w -> snd (step w (OTx u eg pays (DelegatePending o))) = SOk ->
  c_score (w_cfg w) = Some sc -> N.of_nat (length (w_dl w)) < 2 ^ 32 ->
  let w' := fst (step w (OTx u eg pays (DelegatePending o))) in
  let a := default (pending_egld w) o in
  let score c := deleg_score sc (net_of w (candidates w a)) (rec w c) in
  let share c := proportion (score c) (sumN (map score (candidates w a))) a a in
  (pending_egld w' = pending_egld w /\ w_calls w' = w_calls w
   /\ (forall c, In c (candidates w a) ->
       share c < ONE_EGLD \/ p_cap (rec w c) <> 0 /\ p_cap (rec w c) < p_total (rec w c) + ONE_EGLD))
  \/ (pending_egld w' + ONE_EGLD <= pending_egld w
      /\ exists c, In c (candidates w a) /\ ONE_EGLD <= share c
         /\ (p_cap (rec w c) = 0 \/ p_total (rec w c) + ONE_EGLD <= p_cap (rec w c))).
Proof. exact idle_delegation. Qed.
Print Assumptions C59_idle_exactly.

(** Cases: a full provider is the only candidate for 1 EGLD and nothing happens; and
    100 EGLD for two providers without caps. *)
Definition w_idle : world := run w_setup L_FindW.idle_ops.
Example C59_exact_case :
  Reachable w_idle /\ c_score (w_cfg w_idle) = Some scfg_default /\ N.of_nat (length (w_dl w_idle)) < 2 ^ 32
  /\ snd (step w_idle (OTx 100 0 [] (DelegatePending (Some E)))) = SOk
  /\ candidates w_idle E = [1002] /\ p_cap (rec w_idle 1002) = p_total (rec w_idle 1002)
  /\ pending_egld (fst (step w_idle (OTx 100 0 [] (DelegatePending (Some E))))) = pending_egld w_idle
  /\ snd (step w_deposit (OTx 100 0 [] (DelegatePending None))) = SOk
  /\ c_score (w_cfg w_deposit) = Some scfg_default
  /\ pending_egld (fst (step w_deposit (OTx 100 0 [] (DelegatePending None)))) = 0 /\ pending_egld w_deposit = 100 * E.
Proof. split; [apply reach_run, w_setup_reach|]. vm_compute. repeat split. Qed.

(** C82. A successful unDelegatePending un-delegates nothing exactly when each
    candidate has more stake than is asked for, but less than 1 EGLD would stay behind
    after its share (or 1 EGLD) is taken; otherwise it un-delegates at least 1 EGLD. *)
Theorem C82_idle_exactly : forall w u eg pays o sc l,
  Reachable w -> snd (step w (OTx u eg pays (UnDelegatePending o))) = SOk ->
  c_score (w_cfg w) = Some sc -> N.of_nat (length (w_ul w)) < 2 ^ 32 ->
  let w' := fst (step w (OTx u eg pays (UnDelegatePending o))) in
  let a := default (unstake_queue w) o in
  undel_candidates w a l ->
  let score c := undel_score sc (net_of w l) (rec w c) in
  let share c := proportion (score c) (sumN (map score l)) a a in
  let passed_over c := a < net_stake (rec w c) /\ net_stake (rec w c) < N.max ONE_EGLD (N.min (share c) a) + ONE_EGLD in
  (unstake_queue w' = unstake_queue w /\ w_calls w' = w_calls w /\ forall c, In c l -> passed_over c)
  \/ (unstake_queue w' + ONE_EGLD <= unstake_queue w /\ exists c, In c l /\ ~ passed_over c).
Proof. exact idle_undelegation. Qed.
Print Assumptions C82_idle_exactly.

(** Cases: the sole provider has half an EGLD more than is wanted; and two providers
    with enough. *)
Definition w_half : world := run w0 L_Find2.idle_ops.
Example C82_exact_case :
  Reachable w_half /\ snd (step w_half (OTx 100 0 [] (UnDelegatePending None))) = SOk
  /\ c_score (w_cfg w_half) = Some scfg_default /\ N.of_nat (length (w_ul w_half)) < 2 ^ 32
  /\ undel_candidates w_half (unstake_queue w_half) [1000]
  /\ unstake_queue w_half = 70 * E + E / 2 /\ net_stake (rec w_half 1000) = 71 * E
  /\ unstake_queue (fst (step w_half (OTx 100 0 [] (UnDelegatePending None)))) = unstake_queue w_half
  /\ unstake_queue (fst (step w_redeemed (OTx 100 0 [] (UnDelegatePending None)))) = 0 /\ ONE_EGLD <= unstake_queue w_redeemed.
Proof.
  split; [apply reach_run, w0_reach|]. do 3 (split; [vm_compute; reflexivity|]). split.
  { exists []. split; [vm_compute; reflexivity|]. split; [vm_compute; discriminate|]. split; [|by left].
    intros l1 c l2 Hl [Hk _]. destruct l1 as [|x [|y l1]]; [|discriminate Hl..]. vm_compute in Hk. by apply Hk. }
  vm_compute. repeat split; discriminate.
Qed.

(** C81. Where un-delegation would work otherwise (the conditions of C36), a maximum number of
    selected providers keeps it working exactly if it is below 2^64 and not a multiple of 2^32. *)
Theorem C81_limit_exactly : forall w u m x o sc,
  Reachable w -> snd (step w (OTx m 0 [] (SetMaxSelected x))) = SOk ->
  operator u w -> fits_queue o (unstake_queue w) ->
  c_score (w_cfg w) = Some sc -> distinct_bounds sc -> N.of_nat (length (w_ul w)) < 2 ^ 32 ->
  (forall c p, c ∈ w_ul w -> w_pv w !! c = Some p -> net_zero_or_one p) ->
  (exists c p, c ∈ w_ul w /\ w_pv w !! c = Some p /\ 0 < net_stake p) ->
  snd (step (fst (step w (OTx m 0 [] (SetMaxSelected x)))) (OTx u 0 [] (UnDelegatePending o))) = SOk
  <-> x < 2 ^ 64 /\ x mod 2 ^ 32 <> 0.
Proof. exact limit_exactly. Qed.
Print Assumptions C81_limit_exactly.

(** Cases: 2^32 + 1 works, 3 * 2^32 and 2^64 + 1 do not. *)
Definition with_limit (x : N) : world := fst (step w_redeemed (OTx 100 0 [] (SetMaxSelected x))).
Example C81_exact_case :
  Reachable w_redeemed /\ snd (step w_redeemed (OTx 100 0 [] (SetMaxSelected (2 ^ 64 + 1)))) = SOk
  /\ operator 100 w_redeemed /\ fits_queue None (unstake_queue w_redeemed)
  /\ c_score (w_cfg w_redeemed) = Some scfg_default /\ distinct_bounds scfg_default /\ w_ul w_redeemed = [1000; 1001]
  /\ (exists p, w_pv w_redeemed !! 1000 = Some p /\ net_zero_or_one p /\ 0 < net_stake p)
  /\ (exists p, w_pv w_redeemed !! 1001 = Some p /\ net_zero_or_one p /\ 0 < net_stake p)
  /\ map (fun x => snd (step (with_limit x) (OTx 100 0 [] (UnDelegatePending None)))) [2 ^ 32 + 1; 3 * 2 ^ 32; 2 ^ 64 + 1]
     = [SOk; SErr EBadDelegationAddress; SErr EUnwrap].
Proof.
  split; [exact w_redeemed_reach|]. split; [vm_compute; reflexivity|].
  split; [split_and!; [discriminate|left; vm_compute; reflexivity|vm_compute; reflexivity..]|].
  split; [split; [vm_compute; discriminate|exact I]|]. split; [vm_compute; reflexivity|].
  split; [split; vm_compute; discriminate|]. split; [vm_compute; reflexivity|].
  split; [eexists; (split; [vm_compute; reflexivity|]); (split; [right; vm_compute; discriminate|vm_compute; reflexivity])|].
  split; [eexists; (split; [vm_compute; reflexivity|]); (split; [right; vm_compute; discriminate|vm_compute; reflexivity])|].
  vm_compute. reflexivity.
Qed.

(** C60. What is missing in C60_loss_partial, a bound on the price of one LS unit: over any
    history in which at least [L] LS units exist, the price [reserve / supply] is at most
    (L * first price + rewards) / (L - number of actions). *)
Theorem C60_price_history_partial : forall L os w,
  Reachable w -> 0 < L -> always (fun v => L <= ls_supply v) w os ->
  let z := run w os in
  (L - N.of_nat (length os)) * virtual_reserve z * ls_supply w
  <= (L * virtual_reserve w + tally rewards_in w os * ls_supply w) * ls_supply z.
Proof. exact climb_history. Qed.
Print Assumptions C60_price_history_partial.

(** So while the LS units of at least 1 EGLD exist, starting from a price of at most 2 and
    for up to 10^17 actions and rewards of up to 10^8 EGLD (more than there is), a
    deposit loses less than 2 * 10^-10 EGLD. Missing: pools with fewer LS units. *)
Theorem C60_negligible_partial : forall w os u a,
  Reachable w -> always (fun v => ONE_EGLD <= ls_supply v) w os ->
  virtual_reserve w <= 2 * ls_supply w -> N.of_nat (length os) < 10 ^ 17 -> tally rewards_in w os <= 10 ^ 26 ->
  let v := run w os in let z := fst (step v (OTx u a [] Delegate)) in
  snd (step v (OTx u a [] Delegate)) = SOk ->
  exists m, ls_balance u z = ls_balance u v + m /\ a < egld_worth z m + 2 * 10 ^ 8.
Proof. exact loss_small. Qed.
Print Assumptions C60_negligible_partial.

(** Case: a million EGLD of rewards between two deposits makes one unit worth 9186; then
    10 EGLD and 7 units buy 2465 units less than that. *)
Definition rich_ops : list op := [OTx 600 (7 * E) [] Delegate; OTx 600 (1000000 * E) [] AddRewards].
Example C60_exact_case :
  let v := run w_rewarded rich_ops in
  Reachable w_rewarded /\ always (fun v => ONE_EGLD <= ls_supply v) w_rewarded rich_ops
  /\ virtual_reserve w_rewarded <= 2 * ls_supply w_rewarded /\ N.of_nat (length rich_ops) < 10 ^ 17
  /\ tally rewards_in w_rewarded rich_ops = 1000000 * E
  /\ snd (step v (OTx 601 (10 * E + 7) [] Delegate)) = SOk
  /\ let z := fst (step v (OTx 601 (10 * E + 7) [] Delegate)) in
     ls_balance 601 v = 0 /\ egld_worth z (ls_balance 601 z) = 9999999999999997542.
Proof. cbv zeta. split; [exact w_rewarded_reach|]. vm_compute. repeat split; discriminate. Qed.
