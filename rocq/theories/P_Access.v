(** P_Access.v — properties C37 to C41, C44 and C45: access control, pausing,
    migration, events and the fee claim. *)
From Verif Require Import Scenario L_Worth.

(** C37 Owner-only configuration. *)
Theorem C37_owner_only : forall w u eg pays ep,
  owner_only ep = true -> u <> w_owner w ->
  snd (step w (OTx u eg pays ep)) <> SOk /\ nothing_happened w (fst (step w (OTx u eg pays ep))).
Proof. exact owner_gate. Qed.
Print Assumptions C37_owner_only.

(** Nothing else changes the configuration, except a manager setting the scoring
    parameters and the answer to a token issue. *)
Theorem C37_config_changes : forall w o,
  w_cfg (fst (step w o)) <> w_cfg w ->
  (exists eg pays ep, o = OTx (w_owner w) eg pays ep /\ owner_only ep = true)
  \/ (exists u s, o = OTx u 0 [] (SetScoringConfig s) /\ (u = w_owner w \/ u ∈ c_mgrs (w_cfg w))
      /\ w_cfg (fst (step w o)) = set_c_score (Some s) (w_cfg w))
  \/ (exists i ls who a r, o = OCb i /\ nth_error (w_res w) i = Some (KIssue ls who a, r)).
Proof. exact config_changes. Qed.
Print Assumptions C37_config_changes.

Example C37_case :
  owner_only (SetFees 700) = true /\ w_owner w_redeemed = 100
  /\ snd (step w_redeemed (OTx 500 0 [] (SetFees 700))) = SErr EOnlyOwner
  /\ snd (step w_redeemed (OTx 100 0 [] (SetFees 700))) = SOk
  /\ c_fees (w_cfg (fst (step w_redeemed (OTx 100 0 [] (SetFees 700))))) = 700.
Proof. vm_compute. repeat split. Qed.

(** C38 Manager-only operations. *)
Theorem C38_manager_only : forall w u eg pays ep,
  manager_only ep = true -> u <> w_owner w -> u ∉ c_mgrs (w_cfg w) ->
  snd (step w (OTx u eg pays ep)) <> SOk /\ nothing_happened w (fst (step w (OTx u eg pays ep))).
Proof. exact manager_gate. Qed.
Print Assumptions C38_manager_only.

(** The set of managers changes only by calls of the owner, *)
Theorem C38_managers_change : forall w o,
  c_mgrs (w_cfg (fst (step w o))) <> c_mgrs (w_cfg w) ->
  (exists l, o = OTx (w_owner w) 0 [] (AddManagers l)) \/ (exists m, o = OTx (w_owner w) 0 [] (RemoveManager m)).
Proof. exact mgrs_change. Qed.
Print Assumptions C38_managers_change.

(** as asked for. *)
Theorem C38_managers_added : forall w u eg pays l,
  snd (step w (OTx u eg pays (AddManagers l))) = SOk ->
  forall x, x ∈ c_mgrs (w_cfg (fst (step w (OTx u eg pays (AddManagers l))))) <-> x ∈ l \/ x ∈ c_mgrs (w_cfg w).
Proof. exact add_managers_done. Qed.
Print Assumptions C38_managers_added.

Theorem C38_manager_removed : forall w u eg pays m,
  Reachable w -> snd (step w (OTx u eg pays (RemoveManager m))) = SOk ->
  forall x, x ∈ c_mgrs (w_cfg (fst (step w (OTx u eg pays (RemoveManager m))))) <-> x <> m /\ x ∈ c_mgrs (w_cfg w).
Proof. exact remove_manager_done. Qed.
Print Assumptions C38_manager_removed.

(** Nobody is listed twice, so that one removal is enough. *)
Theorem C38_managers_distinct : forall w, Reachable w -> NoDup (c_mgrs (w_cfg w)).
Proof. exact mgrs_nodup. Qed.
Print Assumptions C38_managers_distinct.

(** Case: account 300 is refused, then made a manager and accepted, then removed
    and refused again. *)
Example C38_case :
  Reachable w_deposit /\ manager_only (DelegatePending None) = true
  /\ snd (step w_deposit (OTx 300 0 [] (DelegatePending None))) = SErr ENotManager
  /\ statuses w_deposit [OTx 100 0 [] (AddManagers [300; 301]); OTx 300 0 [] (DelegatePending (Some (50 * E)));
                         OTx 100 0 [] (RemoveManager 300); OTx 300 0 [] (DelegatePending None)]
     = [SOk; SOk; SOk; SErr ENotManager]
  /\ c_mgrs (w_cfg (run w_deposit [OTx 100 0 [] (AddManagers [300; 301]); OTx 100 0 [] (RemoveManager 300)])) = [301]
  /\ c_mgrs (w_cfg (run w_deposit [OTx 100 0 [] (AddManagers [300; 301; 300]); OTx 100 0 [] (AddManagers [301])])) = [300; 301].
Proof. split; [exact w_deposit_reach|]. vm_compute. repeat split. Qed.

(** C39 Provider parameters are isolated: what a change does, *)
Theorem C39_params_effect : forall w u eg pays c total cap nodes apy elig,
  let o := OTx u eg pays (ChangeParams c total cap nodes apy elig) in
  snd (step w o) = SOk ->
  let w' := fst (step w o) in
  (total <= cap \/ cap = 0) /\ w_egld w' = w_egld w /\ w_pool w' = w_pool w
  /\ (exists p, w_pv w !! c = Some p /\ (u = p_admin p \/ u = w_owner w \/ u ∈ c_mgrs (w_cfg w))
      /\ w_pv w' = <[c := Prov (p_admin p) total cap nodes apy (p_staked p) (p_unstaked p) elig (p_pst p) (p_pun p)]> (w_pv w))
  /\ w_cfg w' = w_cfg w /\ w_dl w' = w_dl w /\ w_ul w' = w_ul w /\ w_calls w' = w_calls w /\ w_res w' = w_res w
  /\ ledgers_unchanged w w' /\ env_unchanged w w' /\ w_log w' = [].
Proof. exact params_done. Qed.
Print Assumptions C39_params_effect.

(** when it is accepted, *)
Theorem C39_params_accepted : forall w u c total cap nodes apy elig p,
  w_pv w !! c = Some p -> u <> SELF -> u = p_admin p \/ u = w_owner w \/ u ∈ c_mgrs (w_cfg w) ->
  total <= cap \/ cap = 0 -> nodes < 2 ^ 64 -> apy < 2 ^ 64 ->
  snd (step w (OTx u 0 [] (ChangeParams c total cap nodes apy elig))) = SOk.
Proof. exact params_allowed. Qed.
Print Assumptions C39_params_accepted.

(** and that nothing else changes the reported parameters or the admin of an
    existing record. *)
Theorem C39_only_admins : forall w o c p p',
  Reachable w -> w_pv w !! c = Some p -> w_pv (fst (step w o)) !! c = Some p' ->
  (p_admin p', p_total p', p_cap p', p_nodes p', p_apy p') <> (p_admin p, p_total p, p_cap p, p_nodes p, p_apy p) ->
  (exists u total cap nodes apy elig, o = OTx u 0 [] (ChangeParams c total cap nodes apy elig)
     /\ (u = p_admin p \/ u = w_owner w \/ u ∈ c_mgrs (w_cfg w)))
  \/ (exists u a, o = OTx u 0 [] (ChangeAdmin c a) /\ (u = w_owner w \/ u ∈ c_mgrs (w_cfg w))).
Proof. exact prov_params_change. Qed.
Print Assumptions C39_only_admins.

(** Case: the admin 78 of provider 1001 changes its parameters; the admin of the
    other provider may not. *)
Example C39_case :
  Reachable w_staked /\ option_map p_admin (w_pv w_staked !! 1001) = Some 78
  /\ snd (step w_staked (OTx 78 0 [] (ChangeParams 1001 (4 * E) (600 * E) 30 700 true))) = SOk
  /\ w_pv (fst (step w_staked (OTx 78 0 [] (ChangeParams 1001 (4 * E) (600 * E) 30 700 true)))) !! 1001
     = Some (Prov 78 (4 * E) (600 * E) 30 700 76961782288649127693 0 true 0 0)
  /\ snd (step w_staked (OTx 77 0 [] (ChangeParams 1001 (4 * E) (600 * E) 30 700 true))) = SErr EOnlyDelegationAdmin
  /\ snd (step w_staked (OTx 78 0 [] (ChangeParams 1001 (4 * E) (3 * E) 30 700 true))) = SErr EDelegationCap.
Proof. split; [exact w_staked_reach|]. vm_compute. repeat split. Qed.

(** C40 Pausing: endpoints are refused, *)
Theorem C40_paused : forall w u eg pays ep,
  needs_active ep = true -> c_active (w_cfg w) = false ->
  snd (step w (OTx u eg pays ep)) <> SOk /\ nothing_happened w (fst (step w (OTx u eg pays ep))).
Proof. exact active_gate. Qed.
Print Assumptions C40_paused.

(** replies are booked exactly as in an active contract. *)
Theorem C40_replies_booked : forall w i b,
  let v := set_cfg (set_c_active b (w_cfg w)) w in
  snd (step v (OCb i)) = snd (step w (OCb i))
  /\ fst (step v (OCb i)) = set_cfg (set_c_active b (w_cfg (fst (step w (OCb i))))) (fst (step w (OCb i))).
Proof. exact cb_paused. Qed.
Print Assumptions C40_replies_booked.

Definition paused_ops : list op :=
  [OTx 100 0 [] (DelegatePending None); OExec 0 (Some 0); OTx 100 0 [] SetStateInactive].
Example C40_case :
  needs_active Delegate = true /\ c_active (w_cfg (run w_deposit paused_ops)) = false
  /\ snd (step (run w_deposit paused_ops) (OTx 500 E [] Delegate)) = SErr ENotActive
  /\ snd (step (run w_deposit paused_ops) (OCb 0)) = SOk
  /\ option_map p_staked (w_pv (run w_deposit (paused_ops ++ [OCb 0])) !! 1000) = Some 25038217711350872307.
Proof. vm_compute. repeat split. Qed.

(** C41 Migration is restricted. *)
Theorem C41_migrate : forall w u eg pays a orig,
  snd (step w (OTx u eg pays (Migrate a orig))) = SOk ->
  let w' := fst (step w (OTx u eg pays (Migrate a orig))) in let m := ls_worth w a in
  c_migr (w_cfg w) = Some u /\ is_smart_contract u = true /\ 0 < m
  /\ ls_supply w' = ls_supply w + m /\ virtual_reserve w' = virtual_reserve w + a
  /\ (forall x, ls_balance x w' = ls_balance x w + (if x =? u then m else 0))
  /\ pending_egld w' = pending_egld w /\ unstake_queue w' = unstake_queue w /\ unbonding w' = unbonding w
  /\ total_withdrawn w' = total_withdrawn w /\ fees_reserve w' = fees_reserve w
  /\ contract_egld w' = contract_egld w /\ rest_unchanged w w' /\ ust_unchanged w w'.
Proof. exact migrate_worth. Qed.
Print Assumptions C41_migrate.

Theorem C41_migrate_pending : forall w u eg pays,
  snd (step w (OTx u eg pays MigratePending)) = SOk ->
  let w' := fst (step w (OTx u eg pays MigratePending)) in
  c_migr (w_cfg w) = Some u /\ is_smart_contract u = true
  /\ pending_egld w' = pending_egld w + eg /\ contract_egld w' = contract_egld w + eg
  /\ w_pool w' = set_pend (pending_egld w') (w_pool w)
  /\ w_ls w' = w_ls w /\ rest_unchanged w w' /\ ust_unchanged w w'.
Proof. exact migrate_pending_done. Qed.
Print Assumptions C41_migrate_pending.

(** Case: contract 1500 is registered for migration. *)
Definition w_migr : world := fst (step w_rewarded (OTx 100 0 [] (SetMigrationSc 1500))).
Example C41_case :
  c_migr (w_cfg w_migr) = Some 1500
  /\ snd (step w_migr (OTx 1500 0 [] (Migrate (50 * E) 600))) = SOk
  /\ snd (step w_migr (OTx 1500 (50 * E) [] MigratePending)) = SOk
  /\ ls_balance 1500 (fst (step w_migr (OTx 1500 0 [] (Migrate (50 * E) 600)))) = 49076212471131639722
  /\ snd (step w_migr (OTx 500 0 [] (Migrate (50 * E) 600))) = SErr EMigrationNotAllowed.
Proof. vm_compute. repeat split. Qed.

(** C44 Events tell the truth: the values reported are those stored when the
    action completes and the amount is the change that happened, *)
Theorem C44_events_correct : forall w o,
  snd (step w o) = SOk -> Forall (event_correct w (fst (step w o))) (w_log (fst (step w o))).
Proof. exact events_true. Qed.
Print Assumptions C44_events_correct.

(** and no change of the pool except claimFees goes unreported. *)
Theorem C44_no_silent_change : forall w o,
  w_pool (fst (step w o)) <> w_pool w ->
  (exists u eg pays b, o = OTx u eg pays (ClaimFees b))
  \/ exists e, In e (w_log (fst (step w o))) /\ reported e = Some (w_pool (fst (step w o)), w_epoch (fst (step w o))).
Proof. exact no_silent_change. Qed.
Print Assumptions C44_no_silent_change.

Example C44_case :
  snd (step w_rewarded (OTx 500 0 [Pay TokLs (40 * E)] UnDelegate)) = SOk
  /\ w_log w_redeemed = [XEgld 500 1920000000000000000; XUst 500 1 38832941176470588235;
       EvRemove 40752941176470588235 500
         (Pool (62 * E) 63167058823529411765 80000000000000000 0 0 38832941176470588235 0) 5]
  /\ w_pool w_redeemed = Pool (62 * E) 63167058823529411765 80000000000000000 0 0 38832941176470588235 0.
Proof. vm_compute. repeat split. Qed.

(** C45 claimFees pays only fees, *)
Theorem C45_claim_fees : forall w u eg pays b,
  snd (step w (OTx u eg pays (ClaimFees b))) = SOk ->
  let w' := fst (step w (OTx u eg pays (ClaimFees b))) in
  0 < fees_reserve w /\ fees_reserve w' = 0
  /\ w_log w' = [XDeposit (c_acc (w_cfg w)) (fees_reserve w)]
  /\ contract_egld w' + fees_reserve w = contract_egld w
  /\ w_pool w' = set_fees_res 0 (w_pool w)
  /\ w_ls w' = w_ls w /\ rest_unchanged w w' /\ ust_unchanged w w'.
Proof. exact claim_fees_done. Qed.
Print Assumptions C45_claim_fees.

(** and it works whenever there are fees and the accumulator accepts them. *)
Theorem C45_available : forall w u,
  Reachable w -> u <> SELF -> c_lstok (w_cfg w) = TIssued -> c_acc (w_cfg w) <> SELF -> 0 < fees_reserve w ->
  snd (step w (OTx u 0 [] (ClaimFees true))) = SOk.
Proof. exact claim_fees_works. Qed.
Print Assumptions C45_available.

Example C45_case :
  Reachable w_rewarded /\ c_lstok (w_cfg w_rewarded) = TIssued /\ c_acc (w_cfg w_rewarded) = 200
  /\ fees_reserve w_rewarded = 80000000000000000
  /\ snd (step w_rewarded (OTx 500 0 [] (ClaimFees true))) = SOk
  /\ snd (step w_staked (OTx 500 0 [] (ClaimFees true))) = SErr EInsufficientFeesReserve.
Proof. split; [exact w_rewarded_reach|]. vm_compute. repeat split. Qed.
