(** P_More.v — properties C63 to C68: exact effect and availability of the
    endpoints that only store, only ask or only pay in. *)
From Verif Require Import Scenario L_More.

(** C63 setters store what they say: an accepted call comes from the owner (for
    the scoring also from a manager), changes the named value to the argument and
    nothing else, emits nothing; and every storable argument is accepted. *)
Theorem C63_stored : forall w u eg pays ep,
  Reachable w -> stores_config ep = true -> snd (step w (OTx u eg pays ep)) = SOk ->
  let w' := fst (step w (OTx u eg pays ep)) in
  (u = w_owner w \/ (exists s, ep = SetScoringConfig s) /\ u ∈ c_mgrs (w_cfg w))
  /\ stored ep (w_cfg w) (w_cfg w') /\ only_config w w'.
Proof. exact store_effect. Qed.
Print Assumptions C63_stored.

Theorem C63_available : forall w u ep,
  storable ep -> u <> SELF -> u = w_owner w \/ (exists s, ep = SetScoringConfig s) /\ u ∈ c_mgrs (w_cfg w) ->
  snd (step w (OTx u 0 [] ep)) = SOk.
Proof. exact store_available. Qed.
Print Assumptions C63_available.

(** Case: the owner sets the fee and the unbonding period and adds two managers
    and removes one; a stranger and a bad value are refused. *)
Example C63_case :
  let v := run w_staked [OTx 100 0 [] (SetFees 700); OTx 100 0 [] (SetUnbondPeriod 3);
                         OTx 100 0 [] (AddManagers [31; 32]); OTx 100 0 [] (RemoveManager 31)] in
  Reachable w_staked /\ stores_config (SetFees 700) = true /\ snd (step w_staked (OTx 100 0 [] (SetFees 700))) = SOk
  /\ c_fees (w_cfg v) = 700 /\ c_unbond (w_cfg v) = 3 /\ c_mgrs (w_cfg v) = [32] /\ c_acc (w_cfg v) = 200
  /\ storable (SetMaxAddresses 7) /\ storable (SetScoringConfig scfg_default)
  /\ snd (step v (OTx 32 0 [] (SetScoringConfig scfg_default))) = SOk
  /\ snd (step v (OTx 32 0 [] (SetFees 1))) <> SOk /\ snd (step v (OTx 100 0 [] (SetMaxAddresses 0))) <> SOk
  /\ c_mgrs (w_cfg (run w_staked [OTx 100 0 [] (AddManagers [31; 32; 31; 33; 34]); OTx 100 0 [] (RemoveManager 32)])) = [31; 34; 33].
Proof. split; [exact w_staked_reach|]. vm_compute. repeat split; try reflexivity; discriminate. Qed.

(** C64 asking the providers: withdrawPending sends exactly one call to a known
    provider, claimRewards one call naming every listed provider; nothing else
    changes; operators can always do both while active; and every provider with
    anything recorded is listed. *)
Theorem C64_withdraw_asked : forall w u eg pays c,
  snd (step w (OTx u eg pays (WithdrawPending c))) = SOk ->
  let w' := fst (step w (OTx u eg pays (WithdrawPending c))) in
  operator u w /\ is_Some (w_pv w !! c) /\ only_new_call (KWithd c) w w'.
Proof. exact withdraw_pending_done. Qed.
Print Assumptions C64_withdraw_asked.

Theorem C64_withdraw_available : forall w u c,
  operator u w -> is_Some (w_pv w !! c) -> snd (step w (OTx u 0 [] (WithdrawPending c))) = SOk.
Proof. exact withdraw_pending_available. Qed.
Print Assumptions C64_withdraw_available.

Theorem C64_claim_asked : forall w u eg pays,
  snd (step w (OTx u eg pays ClaimRewards)) = SOk ->
  let w' := fst (step w (OTx u eg pays ClaimRewards)) in
  operator u w /\ w_dl w <> [] /\ only_new_call (KClaim (w_dl w)) w w'.
Proof. exact claim_rewards_done. Qed.
Print Assumptions C64_claim_asked.

Theorem C64_claim_available : forall w u,
  operator u w -> w_dl w <> [] -> snd (step w (OTx u 0 [] ClaimRewards)) = SOk.
Proof. exact claim_rewards_available. Qed.
Print Assumptions C64_claim_available.

Theorem C64_staked_listed : forall w c p,
  Reachable w -> w_pv w !! c = Some p -> 0 < p_staked p + p_unstaked p + p_pst p + p_pun p ->
  c ∈ w_dl w /\ c ∈ w_ul w.
Proof. exact staked_listed. Qed.
Print Assumptions C64_staked_listed.

(** Case: both calls while stake is unbonding. *)
Example C64_case :
  Reachable w_unbonding /\ operator 100 w_unbonding /\ is_Some (w_pv w_unbonding !! 1001)
  /\ w_calls (fst (step w_unbonding (OTx 100 0 [] (WithdrawPending 1001)))) = [KWithd 1001]
  /\ w_calls (fst (step w_unbonding (OTx 100 0 [] ClaimRewards))) = [KClaim (w_dl w_unbonding)]
  /\ w_dl w_unbonding = [1000; 1001] /\ p_unstaked (rec w_unbonding 1001) = 13794723465119715928.
Proof.
  split; [exact w_unbonding_reach|]. split.
  { unfold operator. split; [discriminate|]. split; [left; vm_compute; reflexivity|]. vm_compute. repeat split. }
  split; [vm_compute; eauto|]. vm_compute. repeat split.
Qed.

(** C65 rewards sent in: addRewards raises the reserve, the pending EGLD and the
    balance by exactly the payment, mints nothing and changes nothing else; anyone
    can call it once the LS token is issued. *)
Theorem C65_rewards_added : forall w u eg pays,
  snd (step w (OTx u eg pays AddRewards)) = SOk ->
  let w' := fst (step w (OTx u eg pays AddRewards)) in
  pays = []
  /\ virtual_reserve w' = virtual_reserve w + eg /\ pending_egld w' = pending_egld w + eg
  /\ contract_egld w' = contract_egld w + eg /\ ls_supply w' = ls_supply w
  /\ unstake_queue w' = unstake_queue w /\ unbonding w' = unbonding w
  /\ total_withdrawn w' = total_withdrawn w /\ fees_reserve w' = fees_reserve w
  /\ w_ls w' = w_ls w /\ rest_unchanged w w' /\ ust_unchanged w w'.
Proof. exact add_rewards_done. Qed.
Print Assumptions C65_rewards_added.

Theorem C65_available : forall w u eg,
  u <> SELF -> c_lstok (w_cfg w) = TIssued -> snd (step w (OTx u eg [] AddRewards)) = SOk.
Proof. exact add_rewards_available. Qed.
Print Assumptions C65_available.

Example C65_case :
  c_lstok (w_cfg w_deposit) = TIssued
  /\ virtual_reserve (fst (step w_deposit (OTx 9 (3 * E) [] AddRewards))) = 105 * E
  /\ ls_supply (fst (step w_deposit (OTx 9 (3 * E) [] AddRewards))) = 102 * E
  /\ snd (step w0 (OTx 9 (3 * E) [] AddRewards)) <> SOk.
Proof. vm_compute. repeat split; try reflexivity; discriminate. Qed.

(** C66 provider admins: an accepted call comes from the owner or a manager,
    replaces the admin of a known provider and nothing else; owner and managers
    can always do it, also while inactive. *)
Theorem C66_admin_replaced : forall w u eg pays c a,
  snd (step w (OTx u eg pays (ChangeAdmin c a))) = SOk ->
  let w' := fst (step w (OTx u eg pays (ChangeAdmin c a))) in
  (u = w_owner w \/ u ∈ c_mgrs (w_cfg w)) /\ only_record w w'
  /\ exists p, w_pv w !! c = Some p
  /\ w_pv w' = <[c := Prov a (p_total p) (p_cap p) (p_nodes p) (p_apy p) (p_staked p) (p_unstaked p) (p_elig p) (p_pst p) (p_pun p)]> (w_pv w).
Proof. exact change_admin_done. Qed.
Print Assumptions C66_admin_replaced.

Theorem C66_available : forall w u c a,
  u <> SELF -> u = w_owner w \/ u ∈ c_mgrs (w_cfg w) -> is_Some (w_pv w !! c) ->
  snd (step w (OTx u 0 [] (ChangeAdmin c a))) = SOk.
Proof. exact change_admin_available. Qed.
Print Assumptions C66_available.

(** Case: the old admin loses and the new one gains the right to set parameters. *)
Example C66_case :
  let v := fst (step w_staked (OTx 100 0 [] (ChangeAdmin 1001 88))) in
  snd (step w_staked (OTx 100 0 [] (ChangeAdmin 1001 88))) = SOk
  /\ snd (step w_staked (OTx 78 0 [] (ChangeAdmin 1001 78))) <> SOk
  /\ snd (step v (OTx 78 0 [] (ChangeParams 1001 (3 * E) (500 * E) 20 901 true))) <> SOk
  /\ snd (step v (OTx 88 0 [] (ChangeParams 1001 (3 * E) (500 * E) 20 901 true))) = SOk.
Proof. vm_compute. repeat split; try reflexivity; discriminate. Qed.

(** C67 token issue: the owner starts it once with the issue cost; an answer
    stores the token, a refusal returns the cost to the owner and allows another
    try. [ls] tells the LS token from the unstake token. *)
Theorem C67_started : forall w u eg pays (ls : bool),
  let o := OTx u eg pays (if ls then RegisterLsToken else RegisterUnstakeToken) in
  snd (step w o) = SOk ->
  let w' := fst (step w o) in
  u = w_owner w /\ pays = []
  /\ (if ls then c_lstok (w_cfg w) = TNotSet /\ c_lstok (w_cfg w') = TPending /\ c_usttok (w_cfg w') = c_usttok (w_cfg w)
      else c_usttok (w_cfg w) = TNotSet /\ c_usttok (w_cfg w') = TPending /\ c_lstok (w_cfg w') = c_lstok (w_cfg w))
  /\ only_new_call (KIssue ls u eg) (set_cfg (w_cfg w') w) w'.
Proof. exact register_done. Qed.
Print Assumptions C67_started.

Theorem C67_available : forall w u eg (ls : bool),
  u <> SELF -> u = w_owner w -> (if ls then c_lstok (w_cfg w) else c_usttok (w_cfg w)) = TNotSet ->
  snd (step w (OTx u eg [] (if ls then RegisterLsToken else RegisterUnstakeToken))) = SOk.
Proof. exact register_available. Qed.
Print Assumptions C67_available.

Theorem C67_issued : forall w i (ls : bool) u a v,
  nth_error (w_res w) i = Some (KIssue ls u a, RDone v) ->
  snd (step w (OCb i)) = SOk
  /\ let w' := fst (step w (OCb i)) in
  (if ls then c_lstok (w_cfg w') = TIssued /\ c_usttok (w_cfg w') = c_usttok (w_cfg w)
   else c_usttok (w_cfg w') = TIssued /\ c_lstok (w_cfg w') = c_lstok (w_cfg w))
  /\ contract_egld w' = contract_egld w /\ w_log w' = [].
Proof. exact issue_answered. Qed.
Print Assumptions C67_issued.

Theorem C67_refused : forall w i (ls : bool) u a,
  nth_error (w_res w) i = Some (KIssue ls u a, RFail) ->
  snd (step w (OCb i)) = SOk
  /\ let w' := fst (step w (OCb i)) in
  (if ls then c_lstok (w_cfg w') = TNotSet /\ c_usttok (w_cfg w') = c_usttok (w_cfg w)
   else c_usttok (w_cfg w') = TNotSet /\ c_lstok (w_cfg w') = c_lstok (w_cfg w))
  /\ contract_egld w' = contract_egld w /\ egld_sent u w' = a.
Proof. exact issue_refused. Qed.
Print Assumptions C67_refused.

(** Case: a refused first try, then a second one. *)
Example C67_case :
  let v := run w0 [OTx 100 5 [] RegisterLsToken; OExec 0 None; OCb 0] in
  let v' := run v [OTx 100 5 [] RegisterLsToken; OExec 0 (Some 0)] in
  snd (step w0 (OTx 100 5 [] RegisterLsToken)) = SOk
  /\ w_res (run w0 [OTx 100 5 [] RegisterLsToken; OExec 0 None]) = [(KIssue true 100 5, RFail)]
  /\ c_lstok (w_cfg v) = TNotSet /\ egld_sent 100 v = 5
  /\ w_res v' = [(KIssue true 100 5, RDone 0)] /\ c_lstok (w_cfg v') = TPending
  /\ c_lstok (w_cfg (fst (step v' (OCb 0)))) = TIssued
  /\ snd (step v' (OTx 100 5 [] RegisterLsToken)) <> SOk.
Proof. vm_compute. repeat split; try reflexivity; discriminate. Qed.

(** C68 payments: only payments of the right kind get past an endpoint. *)
Theorem C68_payments : forall w u eg pays ep,
  snd (step w (OTx u eg pays ep)) = SOk -> payment_fits ep eg pays.
Proof. exact payments. Qed.
Print Assumptions C68_payments.

(** Case: good and bad payments. *)
Example C68_case :
  snd (step w_staked (OTx 500 E [] Delegate)) = SOk
  /\ snd (step w_staked (OTx 500 0 [Pay TokLs E] UnDelegate)) = SOk
  /\ snd (step w_staked (OTx 500 0 [Pay TokLs E] Delegate)) <> SOk
  /\ snd (step w_staked (OTx 500 E [] UnDelegate)) <> SOk
  /\ snd (step w_staked (OTx 500 0 [Pay TokLs E; Pay TokLs E] UnDelegate)) <> SOk
  /\ snd (step w_staked (OTx 500 0 [Pay TokLs E] Withdraw)) <> SOk
  /\ snd (step w_staked (OTx 100 1 [] (DelegatePending None))) <> SOk.
Proof. vm_compute. repeat split; try reflexivity; discriminate. Qed.
