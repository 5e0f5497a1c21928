(** P_Batch.v — properties C24 to C28, C31 to C33, C42 and C43: the batch
    endpoints, the replies of the providers, the provider lists, the
    configuration bounds and the token identifiers. *)
From Verif Require Import Scenario L_Worth.

(** C24 delegatePending: a correct batch. [l] lists the providers served and the
    amount sent to each. The bound on the number of calls needs the list to be
    shorter than 2^32, the range of the 32-bit [usize] of the VM. *)
Theorem C24_delegate_batch : forall w u eg pays o,
  Reachable w -> snd (step w (OTx u eg pays (DelegatePending o))) = SOk ->
  let w' := fst (step w (OTx u eg pays (DelegatePending o))) in
  exists l : list (addr * N),
    w_calls w' = w_calls w ++ map (fun x => KDeleg (fst x) (snd x)) l
    /\ sumN (map snd l) <= default (pending_egld w) o
    /\ pending_egld w' + sumN (map snd l) = pending_egld w
    /\ contract_egld w' + sumN (map snd l) = contract_egld w
    /\ NoDup (map fst l)
    /\ (forall c a, In (c, a) l -> ONE_EGLD <= a /\ In c (w_dl w) /\
        exists p, w_pv w !! c = Some p /\ p_elig p = true /\ (p_cap p = 0 \/ a + p_total p <= p_cap p))
    /\ (N.of_nat (length (w_dl w)) < 2 ^ 32 -> N.of_nat (length l) <= c_maxsel (w_cfg w))
    /\ (forall c, w_pv w' !! c = (fun p => set_p_pst (p_pst p + amount_for c l) p) <$> w_pv w !! c)
    /\ w_pool w' = set_pend (pending_egld w') (w_pool w)
    /\ w_dl w' = List.filter (fun c => negb (existsb (N.eqb c) (map fst l))) (w_dl w) ++ map fst l
    /\ w_ul w' = w_ul w /\ w_res w' = w_res w /\ ledgers_unchanged w w' /\ env_unchanged w w'.
Proof. exact delegate_batch_effect. Qed.
Print Assumptions C24_delegate_batch.

(** Case: the 100 EGLD deposit is spread over two providers, and a request for
    60 EGLD only. *)
Example C24_case :
  Reachable w_deposit /\ snd (step w_deposit (OTx 100 0 [] (DelegatePending None))) = SOk
  /\ w_calls (fst (step w_deposit (OTx 100 0 [] (DelegatePending None))))
     = [KDeleg 1000 24038217711350872307; KDeleg 1001 75961782288649127693]
  /\ snd (step w_deposit (OTx 100 0 [] (DelegatePending (Some (60 * E))))) = SOk
  /\ pending_egld (fst (step w_deposit (OTx 100 0 [] (DelegatePending (Some (60 * E)))))) = 40 * E.
Proof. split; [exact w_deposit_reach|]. vm_compute. repeat split. Qed.

(** C25 unDelegatePending: a correct batch. The net stake of a provider is its
    recorded stake plus delegations in flight minus un-delegations in flight. *)
Theorem C25_undelegate_batch : forall w u eg pays o,
  Reachable w -> snd (step w (OTx u eg pays (UnDelegatePending o))) = SOk ->
  let w' := fst (step w (OTx u eg pays (UnDelegatePending o))) in
  exists l : list (addr * N),
    w_calls w' = w_calls w ++ map (fun x => KUndel (fst x) (snd x)) l
    /\ sumN (map snd l) <= default (unstake_queue w) o
    /\ unstake_queue w' + sumN (map snd l) = unstake_queue w
    /\ contract_egld w' = contract_egld w
    /\ NoDup (map fst l)
    /\ (forall c a, In (c, a) l -> ONE_EGLD <= a /\ In c (w_ul w) /\
        exists p, w_pv w !! c = Some p /\ a + p_pun p <= p_staked p + p_pst p
        /\ (p_staked p + p_pst p = a + p_pun p \/ a + p_pun p + ONE_EGLD <= p_staked p + p_pst p))
    /\ N.of_nat (length l) <= c_maxsel (w_cfg w)
    /\ (forall c, w_pv w' !! c = (fun p => set_p_pun (p_pun p + amount_for c l) p) <$> w_pv w !! c)
    /\ w_pool w' = set_pfu (unstake_queue w') (w_pool w)
    /\ w_ul w' = List.filter (fun c => negb (existsb (N.eqb c) (map fst l))) (w_ul w) ++ map fst l
    /\ w_dl w' = w_dl w /\ w_res w' = w_res w /\ ledgers_unchanged w w' /\ env_unchanged w w'.
Proof. exact undelegate_batch_effect. Qed.
Print Assumptions C25_undelegate_batch.

Example C25_case :
  Reachable w_redeemed /\ snd (step w_redeemed (OTx 100 0 [] (UnDelegatePending None))) = SOk
  /\ w_calls (fst (step w_redeemed (OTx 100 0 [] (UnDelegatePending None))))
     = [KUndel 1000 25038217711350872307; KUndel 1001 13794723465119715928]
  /\ unstake_queue (fst (step w_redeemed (OTx 100 0 [] (UnDelegatePending None)))) = 0.
Proof. split; [exact w_redeemed_reach|]. vm_compute. repeat split. Qed.

(** C26 Failed delegations are rolled back. *)
Theorem C26_delegation_rejected : forall w i c a,
  Reachable w -> nth_error (w_res w) i = Some (KDeleg c a, RFail) ->
  let w' := fst (step w (OCb i)) in
  snd (step w (OCb i)) = SOk /\
  exists p, w_pv w !! c = Some p /\ a <= p_pst p
  /\ w_pv w' = <[c := Prov (p_admin p) (p_total p) (p_cap p) (p_nodes p) (p_apy p) (p_staked p) (p_unstaked p)
                       false (p_pst p - a) (p_pun p)]> (w_pv w)
  /\ w_pool w' = set_pend (pending_egld w + a) (w_pool w)
  /\ contract_egld w' = contract_egld w + a
  /\ w_dl w' = w_dl w /\ w_ul w' = w_ul w /\ w_calls w' = w_calls w /\ w_res w' = drop_nth i (w_res w)
  /\ ledgers_unchanged w w' /\ env_unchanged w w'.
Proof. exact cb_deleg_failed. Qed.
Print Assumptions C26_delegation_rejected.

Theorem C26_delegation_accepted : forall w i c a v,
  Reachable w -> nth_error (w_res w) i = Some (KDeleg c a, RDone v) ->
  let w' := fst (step w (OCb i)) in
  snd (step w (OCb i)) = SOk /\
  exists p, w_pv w !! c = Some p /\ a <= p_pst p
  /\ w_pv w' = <[c := Prov (p_admin p) (p_total p) (p_cap p) (p_nodes p) (p_apy p) (p_staked p + a) (p_unstaked p)
                       (p_elig p) (p_pst p - a) (p_pun p)]> (w_pv w)
  /\ w_pool w' = w_pool w /\ contract_egld w' = contract_egld w
  /\ w_dl w' = w_dl w /\ w_ul w' = w_ul w /\ w_calls w' = w_calls w /\ w_res w' = drop_nth i (w_res w)
  /\ ledgers_unchanged w w' /\ env_unchanged w w'.
Proof. exact cb_deleg_ok. Qed.
Print Assumptions C26_delegation_accepted.

(** one of the two calls of a batch is rejected, the other accepted *)
Definition half_ops : list op :=
  [OTx 100 0 [] (DelegatePending None); OExec 0 None; OExec 0 (Some 0)].
Example C26_case :
  Reachable (run w_deposit half_ops)
  /\ w_res (run w_deposit half_ops)
     = [(KDeleg 1000 24038217711350872307, RFail); (KDeleg 1001 75961782288649127693, RDone 0)]
  /\ pending_egld (run w_deposit (half_ops ++ [OCb 0])) = 24038217711350872307
  /\ option_map p_elig (w_pv (run w_deposit (half_ops ++ [OCb 0])) !! 1000) = Some false
  /\ option_map p_staked (w_pv (run w_deposit (half_ops ++ [OCb 1])) !! 1001) = Some 76961782288649127693.
Proof. split; [apply reach_run, w_deposit_reach|]. vm_compute. repeat split. Qed.

(** C27 Failed un-delegations are requeued. *)
Theorem C27_undelegation_rejected : forall w i c a,
  Reachable w -> nth_error (w_res w) i = Some (KUndel c a, RFail) ->
  let w' := fst (step w (OCb i)) in
  snd (step w (OCb i)) = SOk /\
  exists p, w_pv w !! c = Some p /\ a <= p_pun p
  /\ w_pv w' = <[c := Prov (p_admin p) (p_total p) (p_cap p) (p_nodes p) (p_apy p) (p_staked p) (p_unstaked p)
                       (p_elig p) (p_pst p) (p_pun p - a)]> (w_pv w)
  /\ w_pool w' = set_pfu (unstake_queue w + a) (w_pool w)
  /\ contract_egld w' = contract_egld w
  /\ w_dl w' = w_dl w /\ w_ul w' = w_ul w /\ w_calls w' = w_calls w /\ w_res w' = drop_nth i (w_res w)
  /\ ledgers_unchanged w w' /\ env_unchanged w w'.
Proof. exact cb_undel_failed. Qed.
Print Assumptions C27_undelegation_rejected.

(** An accepted un-delegation is booked exactly when the recorded stake covers
    it; C29 shows that it does as long as replies arrive in order. *)
Theorem C27_undelegation_accepted : forall w i c a v,
  Reachable w -> nth_error (w_res w) i = Some (KUndel c a, RDone v) ->
  let w' := fst (step w (OCb i)) in
  exists p, w_pv w !! c = Some p /\ a <= p_pun p
  /\ (snd (step w (OCb i)) = SOk <-> a <= p_staked p)
  /\ (a <= p_staked p ->
      w_pv w' = <[c := Prov (p_admin p) (p_total p) (p_cap p) (p_nodes p) (p_apy p) (p_staked p - a) (p_unstaked p + a)
                       (p_elig p) (p_pst p) (p_pun p - a)]> (w_pv w)
      /\ w_pool w' = set_pfb (unbonding w + a) (w_pool w)
      /\ contract_egld w' = contract_egld w
      /\ w_dl w' = w_dl w /\ w_ul w' = w_ul w /\ w_calls w' = w_calls w /\ w_res w' = drop_nth i (w_res w)
      /\ ledgers_unchanged w w' /\ env_unchanged w w').
Proof. exact cb_undel_ok. Qed.
Print Assumptions C27_undelegation_accepted.

Definition half_undo_ops : list op :=
  [OTx 100 0 [] (UnDelegatePending None); OExec 0 None; OExec 0 (Some 0)].
Example C27_case :
  Reachable (run w_redeemed half_undo_ops)
  /\ w_res (run w_redeemed half_undo_ops)
     = [(KUndel 1000 25038217711350872307, RFail); (KUndel 1001 13794723465119715928, RDone 0)]
  /\ unstake_queue (run w_redeemed (half_undo_ops ++ [OCb 0])) = 25038217711350872307
  /\ unbonding (run w_redeemed (half_undo_ops ++ [OCb 0; OCb 0])) = 13794723465119715928
  /\ option_map p_unstaked (w_pv (run w_redeemed (half_undo_ops ++ [OCb 1])) !! 1001) = Some 13794723465119715928.
Proof. split; [apply reach_run, w_redeemed_reach|]. vm_compute. repeat split. Qed.

(** C28 Withdrawn EGLD is credited exactly. [v] is the EGLD that came with the
    reply. *)
Theorem C28_withdrawn_credited : forall w i c r,
  nth_error (w_res w) i = Some (KWithd c, r) -> snd (step w (OCb i)) = SOk ->
  let w' := fst (step w (OCb i)) in
  let v := match r with RDone v => v | RFail => 0 end in
  contract_egld w' = contract_egld w + v
  /\ total_withdrawn w' = total_withdrawn w + v /\ unbonding w' + v = unbonding w
  /\ w_pool w' = set_pfb (unbonding w') (set_withdrawn (total_withdrawn w') (w_pool w))
  /\ (v = 0 -> w_pv w' = w_pv w)
  /\ (0 < v -> exists p, w_pv w !! c = Some p /\ v <= p_unstaked p
      /\ w_pv w' = <[c := set_p_unstaked (p_unstaked p - v) p]> (w_pv w))
  /\ w_dl w' = w_dl w /\ w_ul w' = w_ul w /\ w_calls w' = w_calls w /\ w_res w' = drop_nth i (w_res w)
  /\ ledgers_unchanged w w' /\ env_unchanged w w'.
Proof. exact cb_withd. Qed.
Print Assumptions C28_withdrawn_credited.

(** An empty or failed reply never aborts and changes nothing else. *)
Theorem C28_empty_reply : forall w i c r,
  nth_error (w_res w) i = Some (KWithd c, r) -> r = RFail \/ r = RDone 0 ->
  step w (OCb i) = (set_egld (w_egld w + 0) (set_res (drop_nth i (w_res w)) (set_log [] w)), SOk).
Proof. exact cb_withd_empty. Qed.
Print Assumptions C28_empty_reply.

Definition withdraw_ops (out : option N) : list op := [OEpoch 10; OTx 100 0 [] (WithdrawPending 1000); OExec 0 out].
Example C28_case :
  w_res (run w_unbonding (withdraw_ops (Some (25 * E)))) = [(KWithd 1000, RDone (25 * E))]
  /\ snd (step (run w_unbonding (withdraw_ops (Some (25 * E)))) (OCb 0)) = SOk
  /\ total_withdrawn (run w_unbonding (withdraw_ops (Some (25 * E)) ++ [OCb 0])) = 25 * E
  /\ w_res (run w_unbonding (withdraw_ops None)) = [(KWithd 1000, RFail)].
Proof. vm_compute. repeat split. Qed.

(** C31 Reward split. *)
Theorem C31_reward_split : forall w i l v,
  nth_error (w_res w) i = Some (KClaim l, RDone v) -> snd (step w (OCb i)) = SOk ->
  let w' := fst (step w (OCb i)) in
  let fee := v * c_fees (w_cfg w) / 10000 in
  fee <= v
  /\ fees_reserve w' = fees_reserve w + fee
  /\ pending_egld w' = pending_egld w + (v - fee) /\ virtual_reserve w' = virtual_reserve w + (v - fee)
  /\ contract_egld w' = contract_egld w + v
  /\ ls_supply w' = ls_supply w /\ unstake_queue w' = unstake_queue w /\ unbonding w' = unbonding w
  /\ total_withdrawn w' = total_withdrawn w
  /\ w_pv w' = w_pv w /\ w_dl w' = w_dl w /\ w_ul w' = w_ul w /\ w_calls w' = w_calls w
  /\ w_res w' = drop_nth i (w_res w) /\ ledgers_unchanged w w' /\ env_unchanged w w'.
Proof. exact cb_claim. Qed.
Print Assumptions C31_reward_split.

(** and the reply is always booked while the fee is at most 100%. *)
Theorem C31_reward_booked : forall w i l r,
  Reachable w -> nth_error (w_res w) i = Some (KClaim l, r) -> c_fees (w_cfg w) <= 10000 ->
  snd (step w (OCb i)) = SOk.
Proof. exact cb_claim_available. Qed.
Print Assumptions C31_reward_booked.

Definition claim_ops : list op := [OTx 100 0 [] ClaimRewards; OExec 0 (Some 99)].
Example C31_case :
  Reachable (run w_staked claim_ops) /\ c_fees (w_cfg (run w_staked claim_ops)) = 400
  /\ w_res (run w_staked claim_ops) = [(KClaim [1000; 1001], RDone 99)]
  /\ fees_reserve (run w_staked (claim_ops ++ [OCb 0])) = 3
  /\ pending_egld (run w_staked (claim_ops ++ [OCb 0])) = 96.
Proof. split; [apply reach_run, w_staked_reach|]. vm_compute. repeat split. Qed.

(** C32 Whitelisting is all or nothing: the call, *)
Theorem C32_whitelisting_starts : forall w u eg pays c admin total cap nodes apy,
  let o := OTx u eg pays (Whitelist c admin total cap nodes apy) in
  snd (step w o) = SOk ->
  let w' := fst (step w o) in
  w_pv w !! c = None /\ ONE_EGLD <= eg /\ (total <= cap \/ cap = 0)
  /\ w_pv w' = <[c := Prov admin total cap nodes apy 0 0 true 0 0]> (w_pv w)
  /\ w_calls w' = w_calls w ++ [KWhite c eg u]
  /\ w_pool w' = w_pool w /\ contract_egld w' = contract_egld w
  /\ w_dl w' = w_dl w /\ w_ul w' = w_ul w /\ w_res w' = w_res w
  /\ ledgers_unchanged w w' /\ env_unchanged w w'.
Proof. exact white_tx. Qed.
Print Assumptions C32_whitelisting_starts.

(** a rejected stake, *)
Theorem C32_whitelisting_rejected : forall w i c a u,
  c_lstok (w_cfg w) = TIssued -> nth_error (w_res w) i = Some (KWhite c a u, RFail) ->
  let w' := fst (step w (OCb i)) in
  snd (step w (OCb i)) = SOk
  /\ w_pv w' = delete c (w_pv w) /\ (forall v, egld_sent v w' = if u =? v then a else 0)
  /\ w_pool w' = w_pool w /\ contract_egld w' = contract_egld w
  /\ w_dl w' = w_dl w /\ w_ul w' = w_ul w /\ w_calls w' = w_calls w /\ w_res w' = drop_nth i (w_res w)
  /\ ledgers_unchanged w w' /\ env_unchanged w w'.
Proof. exact cb_white_failed. Qed.
Print Assumptions C32_whitelisting_rejected.

(** an accepted stake, *)
Theorem C32_whitelisting_accepted : forall w i c a u v,
  Reachable w -> nth_error (w_res w) i = Some (KWhite c a u, RDone v) -> c_lstok (w_cfg w) = TIssued -> 0 < ls_worth w a ->
  let w' := fst (step w (OCb i)) in let m := ls_worth w a in
  snd (step w (OCb i)) = SOk
  /\ c ∉ w_dl w /\ w_dl w' = w_dl w ++ [c] /\ w_ul w' = w_ul w ++ [c]
  /\ (exists p, w_pv w !! c = Some p /\ p_staked p = 0 /\ w_pv w' = <[c := set_p_staked a p]> (w_pv w))
  /\ ls_supply w' = ls_supply w + m /\ virtual_reserve w' = virtual_reserve w + a
  /\ (forall x, ls_balance x w' = ls_balance x w + (if x =? u then m else 0))
  /\ pending_egld w' = pending_egld w /\ unstake_queue w' = unstake_queue w /\ unbonding w' = unbonding w
  /\ total_withdrawn w' = total_withdrawn w /\ fees_reserve w' = fees_reserve w
  /\ contract_egld w' = contract_egld w
  /\ w_calls w' = w_calls w /\ w_res w' = drop_nth i (w_res w)
  /\ ust_unchanged w w' /\ env_unchanged w w'.
Proof. exact white_worth. Qed.
Print Assumptions C32_whitelisting_accepted.

(** and the permanence of a listing. *)
Theorem C32_listed_for_good : forall w os c,
  Reachable w -> c ∈ w_dl w -> c ∈ w_dl (run w os) /\ c ∈ w_ul (run w os).
Proof. exact listed_stays. Qed.
Print Assumptions C32_listed_for_good.

Definition white_ops (out : option N) : list op := [OTx 100 (2 * E) [] (Whitelist 1002 79 0 0 5 700); OExec 0 out].
Example C32_case :
  Reachable (run w_rewarded (white_ops None)) /\ c_lstok (w_cfg w_rewarded) = TIssued
  /\ snd (step w_rewarded (OTx 100 (2 * E) [] (Whitelist 1002 79 0 0 5 700))) = SOk
  /\ w_res (run w_rewarded (white_ops None)) = [(KWhite 1002 (2 * E) 100, RFail)]
  /\ w_res (run w_rewarded (white_ops (Some 0))) = [(KWhite 1002 (2 * E) 100, RDone 0)]
  /\ ls_worth (run w_rewarded (white_ops (Some 0))) (2 * E) = 1963048498845265588
  /\ egld_sent 100 (run w_rewarded (white_ops None ++ [OCb 0])) = 2 * E
  /\ w_dl (run w_rewarded (white_ops (Some 0) ++ [OCb 0])) = [1000; 1001; 1002].
Proof. split; [apply reach_run, w_rewarded_reach|]. vm_compute. repeat split. Qed.

(** C33 The two provider lists stay consistent, *)
Theorem C33_lists_consistent : forall w,
  Reachable w ->
  NoDup (w_dl w) /\ NoDup (w_ul w) /\ (forall c, c ∈ w_dl w <-> c ∈ w_ul w)
  /\ (forall c, c ∈ w_dl w -> is_Some (w_pv w !! c)).
Proof. exact list_views. Qed.
Print Assumptions C33_lists_consistent.

(** and an action either leaves them alone, moves served providers to the back
    of one of them keeping the order of the others, or appends one new provider
    to both. *)
Theorem C33_lists_change : forall w o,
  Reachable w -> let w' := fst (step w o) in
  (w_dl w' = w_dl w /\ w_ul w' = w_ul w)
  \/ (exists s, NoDup s /\ (forall c, c ∈ s -> c ∈ w_dl w) /\ w_ul w' = w_ul w
       /\ w_dl w' = List.filter (fun c => negb (existsb (N.eqb c) s)) (w_dl w) ++ s)
  \/ (exists s, NoDup s /\ (forall c, c ∈ s -> c ∈ w_ul w) /\ w_dl w' = w_dl w
       /\ w_ul w' = List.filter (fun c => negb (existsb (N.eqb c) s)) (w_ul w) ++ s)
  \/ (exists c, c ∉ w_dl w /\ c ∉ w_ul w /\ w_dl w' = w_dl w ++ [c] /\ w_ul w' = w_ul w ++ [c]).
Proof. exact lists_change. Qed.
Print Assumptions C33_lists_change.

(** Case: only provider 1000 is served by a small batch and moves to the back. *)
Example C33_case :
  Reachable w_deposit /\ w_dl w_deposit = [1000; 1001] /\ w_ul w_deposit = [1000; 1001]
  /\ w_dl (fst (step w_deposit (OTx 100 0 [] (DelegatePending (Some E))))) = [1001; 1000]
  /\ w_ul (fst (step w_deposit (OTx 100 0 [] (DelegatePending (Some E))))) = [1000; 1001].
Proof. split; [exact w_deposit_reach|]. vm_compute. repeat split. Qed.

(** C42 Configuration bounds. *)
Theorem C42_bounds : forall w,
  Reachable w ->
  1 <= c_maxsel (w_cfg w) /\ 1 <= c_maxaddr (w_cfg w) < 2 ^ 32
  /\ map_Forall (fun _ p => p_cap p = 0 \/ p_total p <= p_cap p) (w_pv w).
Proof. exact cfgok. Qed.
Print Assumptions C42_bounds.

Example C42_case :
  Reachable w_redeemed /\ c_maxsel (w_cfg w_redeemed) = 20
  /\ option_map p_cap (w_pv w_redeemed !! 1001) = Some (500 * E)
  /\ snd (step w_redeemed (OTx 100 0 [] (SetMaxSelected 0))) <> SOk
  /\ snd (step w_redeemed (OTx 78 0 [] (ChangeParams 1001 (501 * E) (500 * E) 1 1 true))) <> SOk.
Proof. split; [exact w_redeemed_reach|]. vm_compute. repeat split; discriminate. Qed.

(** C43 Token ids are set once: they stay issued, *)
Theorem C43_tokens_final : forall w os,
  Reachable w ->
  (c_lstok (w_cfg w) = TIssued -> c_lstok (w_cfg (run w os)) = TIssued)
  /\ (c_usttok (w_cfg w) = TIssued -> c_usttok (w_cfg (run w os)) = TIssued).
Proof. exact tokens_final. Qed.
Print Assumptions C43_tokens_final.

(** no second issue is under way or can be started, *)
Theorem C43_issued_once : forall w (ls : bool),
  Reachable w -> (if ls then c_lstok (w_cfg w) else c_usttok (w_cfg w)) = TIssued ->
  (forall who a, ~ In (KIssue ls who a) (unanswered w))
  /\ (forall u eg pays, snd (step w (OTx u eg pays (if ls then RegisterLsToken else RegisterUnstakeToken))) <> SOk).
Proof. exact issued_once. Qed.
Print Assumptions C43_issued_once.

(** and nothing of value works before the LS token is issued. *)
Theorem C43_gated : forall w u eg pays ep,
  snd (step w (OTx u eg pays ep)) = SOk -> needs_ls_token ep = true -> c_lstok (w_cfg w) = TIssued.
Proof. exact gated. Qed.
Print Assumptions C43_gated.

Example C43_case :
  Reachable w_setup /\ c_lstok (w_cfg w_setup) = TIssued /\ c_usttok (w_cfg w_setup) = TIssued
  /\ c_lstok (w_cfg w0) = TNotSet /\ snd (step w_setup (OTx 500 E [] Delegate)) = SOk
  /\ unanswered (run w0 [OTx 100 5 [] RegisterLsToken]) = [KIssue true 100 5].
Proof. split; [exact w_setup_reach|]. vm_compute. repeat split. Qed.
