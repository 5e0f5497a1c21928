(** P_Exact2.v — exactly when the failures behind C57, C58 and C80 occur. *)
From Verif Require Import Scenario L_FindW L_Find2 L_Exact2.

(** C57. The reply to a whitelisting is dealt with exactly if the LS token is issued and,
    for an accepted payment, this is worth at least one LS unit. Otherwise nothing is
    recorded, minted or sent: a returned payment stays with the contract unrecorded, an
    accepted one stays with the provider unrecorded. *)
Theorem C57_stranded_exactly : forall w i c a u r,
  Reachable w -> nth_error (w_res w) i = Some (KWhite c a u, r) ->
  let w' := fst (step w (OCb i)) in
  (snd (step w (OCb i)) = SOk
   <-> c_lstok (w_cfg w) = TIssued
       /\ (r = RFail \/ virtual_reserve w = 0 \/ virtual_reserve w <= a * ls_supply w))
  /\ (snd (step w (OCb i)) <> SOk ->
      w_pv w' = w_pv w /\ w_dl w' = w_dl w /\ w_ul w' = w_ul w /\ w_pool w' = w_pool w
      /\ w_ls w' = w_ls w /\ w_log w' = [] /\ w_calls w' = w_calls w /\ w_res w' = drop_nth i (w_res w)
      /\ contract_egld w' = contract_egld w + match r with RFail => a | RDone _ => 0 end).
Proof. exact stranded_exactly. Qed.
Print Assumptions C57_stranded_exactly.

(** Cases: the same whitelisting before the token is issued and after, both replies; and a
    payment that is worth no LS unit because a reserve stands without LS tokens. *)
Definition early_ops (out : option N) : list op := [OTx 100 (2 * E) [] (Whitelist 1002 79 0 0 5 700); OExec 0 out].
Definition w_orphan : world := fst (step w_tok (OTx 600 1 [] AddRewards)).
Example C57_exact_case :
  Reachable (run w0 (early_ops None)) /\ Reachable (run w_rewarded (early_ops None)) /\ Reachable (run w_orphan (early_ops None))
  /\ map (fun w => nth_error (w_res (run w (early_ops None))) 0) [w0; w_rewarded; w_orphan]
     = repeat (Some (KWhite 1002 (2 * E) 100, RFail)) 3
  /\ map (fun w => nth_error (w_res (run w (early_ops (Some 0)))) 0) [w0; w_rewarded; w_orphan]
     = repeat (Some (KWhite 1002 (2 * E) 100, RDone 0)) 3
  /\ map (fun w => snd (step (run w (early_ops None)) (OCb 0))) [w0; w_rewarded; w_orphan]
     = [SCbFail ELsTokenNotIssued; SOk; SOk]
  /\ map (fun w => snd (step (run w (early_ops (Some 0))) (OCb 0))) [w0; w_rewarded; w_orphan]
     = [SCbFail ELsTokenNotIssued; SOk; SCbFail EInsufficientLiquidity].
Proof.
  split; [apply reach_run; exact (reach_deploy _ _ _ _ _ _ _ _ _ _ w0_deployed)|].
  split; [apply reach_run, w_rewarded_reach|]. split; [apply reach_run, reach_step, w_tok_reach|].
  vm_compute. repeat split; reflexivity.
Qed.

(** C58. Where a batch would work with any configuration with proper ranges (the
    conditions of C36 and its counterpart), it works with the accepted configuration [s]
    exactly if no candidate of the batch lies on both ends of a range of [s] at once. *)
Theorem C58_config_exactly : forall w u eg pays s v o,
  let w' := fst (step w (OTx u eg pays (SetScoringConfig s))) in
  Reachable w -> snd (step w (OTx u eg pays (SetScoringConfig s))) = SOk -> operator v w ->
  (fits_queue o (pending_egld w) -> N.of_nat (length (w_dl w)) < 2 ^ 32 ->
   (forall c p, c ∈ w_dl w -> w_pv w !! c = Some p -> within_cap p) ->
   (exists c p, c ∈ w_dl w /\ w_pv w !! c = Some p /\ has_room p) ->
   snd (step w' (OTx v 0 [] (DelegatePending o))) = SOk
   <-> forall c, In c (candidates w (default (pending_egld w) o)) -> ratable s (rec w c))
  /\ (fits_queue o (unstake_queue w) -> N.of_nat (length (w_ul w)) < 2 ^ 32 ->
   c_maxsel (w_cfg w) < 2 ^ 64 -> c_maxsel (w_cfg w) mod 2 ^ 32 <> 0 ->
   (forall c p, c ∈ w_ul w -> w_pv w !! c = Some p -> net_zero_or_one p) ->
   (exists c p, c ∈ w_ul w /\ w_pv w !! c = Some p /\ 0 < net_stake p) ->
   forall l, undel_candidates w (default (unstake_queue w) o) l ->
   snd (step w' (OTx v 0 [] (UnDelegatePending o))) = SOk
   <-> forall c, In c l -> ratable s (rec w c)).
Proof. exact config_exactly. Qed.
Print Assumptions C58_config_exactly.

(** Cases: configurations with equal bounds at 10 nodes, which one of the candidates has,
    and at 11, which none has. *)
Definition with_nodes (w : world) (n : N) : world :=
  fst (step w (OTx 100 0 [] (SetScoringConfig (Scfg n n 500 1000 40 50 10 1000 3 4)))).
Example C58_exact_case :
  Reachable w_deposit /\ operator 100 w_deposit /\ fits_queue None (pending_egld w_deposit)
  /\ map (fun n => snd (step w_deposit (OTx 100 0 [] (SetScoringConfig (Scfg n n 500 1000 40 50 10 1000 3 4))))) [10; 11] = [SOk; SOk]
  /\ candidates w_deposit (pending_egld w_deposit) = [1000; 1001]
  /\ map (fun c => p_nodes (rec w_deposit c)) [1000; 1001] = [10; 20]
  /\ map (fun n => snd (step (with_nodes w_deposit n) (OTx 100 0 [] (DelegatePending None)))) [10; 11] = [SErr EDivZero; SOk]
  /\ Reachable w_redeemed /\ w_ul w_redeemed = [1000; 1001]
  /\ map (fun n => snd (step (with_nodes w_redeemed n) (OTx 100 0 [] (UnDelegatePending None)))) [10; 11] = [SErr EDivZero; SOk].
Proof.
  split; [exact w_deposit_reach|].
  split; [split_and!; [discriminate|left; vm_compute; reflexivity|vm_compute; reflexivity..]|].
  split; [split; [vm_compute; discriminate|exact I]|]. do 4 (split; [vm_compute; reflexivity|]).
  split; [exact w_redeemed_reach|]. split; vm_compute; reflexivity.
Qed.

(** C80. The release epoch is the sum of epoch and unbonding period modulo 2^64, and lies
    in the past exactly if the sum reaches 2^64. *)
Theorem C80_release_exactly : forall w u eg pays n,
  Reachable w -> snd (step w (OTx u eg pays UnDelegate)) = SOk ->
  let w' := fst (step w (OTx u eg pays UnDelegate)) in
  ust_of n u w < ust_of n u w' ->
  exists r, release_epoch n w' = Some r /\ r = (w_epoch w + c_unbond (w_cfg w)) mod 2 ^ 64
    /\ (r < w_epoch w <-> 2 ^ 64 <= w_epoch w + c_unbond (w_cfg w)).
Proof. exact release_exactly. Qed.
Print Assumptions C80_release_exactly.

(** Cases: a period of 10 epochs and the longest one. *)
Definition w_endless : world := run w_rewarded [OTx 100 0 [] (SetUnbondPeriod (2 ^ 64 - 1))].
Example C80_exact_case :
  Reachable w_rewarded /\ Reachable w_endless
  /\ map (fun w => snd (step w (OTx 500 0 [Pay TokLs (40 * E)] UnDelegate))) [w_rewarded; w_endless] = [SOk; SOk]
  /\ map (fun w => ust_of 1 500 w) [w_rewarded; w_endless] = [0; 0]
  /\ map (fun w => 0 <? ust_of 1 500 (fst (step w (OTx 500 0 [Pay TokLs (40 * E)] UnDelegate)))) [w_rewarded; w_endless] = [true; true]
  /\ map (fun w => release_epoch 1 (fst (step w (OTx 500 0 [Pay TokLs (40 * E)] UnDelegate)))) [w_rewarded; w_endless] = [Some 15; Some 4]
  /\ map w_epoch [w_rewarded; w_endless] = [5; 5].
Proof.
  split; [exact w_rewarded_reach|]. split; [apply reach_run, w_rewarded_reach|].
  repeat split; vm_compute; reflexivity.
Qed.
