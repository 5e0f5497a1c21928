(** P_Turn.v — property C93: every provider gets its turn. *)
From Verif Require Import Spec5 Scenario L_Turn.

(** C93. The place of a provider in the queue for new stake only improves: whatever
    happens, as long as it is not itself asked to stake, it stays in the queue and
    moves up by exactly the number of providers asked that stood ahead of it. Nobody
    new is ever put ahead of it. *)
Theorem C93_turn_to_stake : forall w os c,
  Reachable w -> In c (w_dl w) ->
  along (fun v o => ~ In c (asked_to_stake v (fst (step v o)))) w os ->
  In c (w_dl (run w os)) /\ tally (staked_ahead c) w os + ahead c (w_dl (run w os)) = ahead c (w_dl w).
Proof. exact turn_to_stake. Qed.
Print Assumptions C93_turn_to_stake.

(** Case: the second provider moves to the front when 1 EGLD goes to the first. *)
Example C93_turn_to_stake_case :
  let os := [OTx 100 0 [] (DelegatePending (Some E)); OTx 500 (3 * E) [] Delegate] in
  Reachable w_deposit /\ forallb ok_b (statuses w_deposit os) = true /\ ahead 1001 (w_dl w_deposit) = 1
  /\ along (fun v o => ~ In 1001 (asked_to_stake v (fst (step v o)))) w_deposit os
  /\ tally (staked_ahead 1001) w_deposit os = 1 /\ ahead 1001 (w_dl (run w_deposit os)) = 0.
Proof.
  split; [exact w_deposit_reach|]. vm_compute. repeat split; try (intros K; repeat destruct K as [K|K]; discriminate || done).
Qed.

(** The same of the queue for un-staking. *)
Theorem C93_turn_to_unstake : forall w os c,
  Reachable w -> In c (w_ul w) ->
  along (fun v o => ~ In c (asked_to_unstake v (fst (step v o)))) w os ->
  In c (w_ul (run w os)) /\ tally (unstaked_ahead c) w os + ahead c (w_ul (run w os)) = ahead c (w_ul w).
Proof. exact turn_to_unstake. Qed.
Print Assumptions C93_turn_to_unstake.

Example C93_turn_to_unstake_case :
  let os := [OTx 100 0 [] (UnDelegatePending (Some E))] in
  Reachable w_redeemed /\ forallb ok_b (statuses w_redeemed os) = true /\ ahead 1001 (w_ul w_redeemed) = 1
  /\ along (fun v o => ~ In 1001 (asked_to_unstake v (fst (step v o)))) w_redeemed os
  /\ tally (unstaked_ahead 1001) w_redeemed os = 1 /\ ahead 1001 (w_ul (run w_redeemed os)) = 0.
Proof.
  split; [exact w_redeemed_reach|]. vm_compute. repeat split; try (intros K; repeat destruct K as [K|K]; discriminate || done).
Qed.

(** Nobody is passed over: if a batch asks a provider to stake, everybody who stood
    ahead of it and can take more was a candidate of the same batch. *)
Theorem C93_not_passed_over : forall w u eg pays o c d,
  Reachable w -> snd (step w (OTx u eg pays (DelegatePending o))) = SOk ->
  N.of_nat (length (w_dl w)) < 2 ^ 32 ->
  In d (asked_to_stake w (fst (step w (OTx u eg pays (DelegatePending o))))) ->
  In c (w_dl w) -> ahead c (w_dl w) < ahead d (w_dl w) -> takes_more (rec w c) = true ->
  In c (candidates w (default (pending_egld w) o)).
Proof. exact not_passed_over. Qed.
Print Assumptions C93_not_passed_over.

Example C93_not_passed_over_case :
  Reachable w_deposit /\ snd (step w_deposit (OTx 100 0 [] (DelegatePending None))) = SOk
  /\ asked_to_stake w_deposit (fst (step w_deposit (OTx 100 0 [] (DelegatePending None)))) = [1000; 1001]
  /\ ahead 1000 (w_dl w_deposit) < ahead 1001 (w_dl w_deposit) /\ takes_more (rec w_deposit 1000) = true.
Proof. split; [exact w_deposit_reach|]. vm_compute. repeat split. Qed.

(** The candidates of an un-staking batch are determined by the state, and everybody
    who stood ahead of a provider asked and holds stake is one of them. *)
Theorem C93_not_passed_over_unstaking : forall w u eg pays o c d l,
  Reachable w -> snd (step w (OTx u eg pays (UnDelegatePending o))) = SOk ->
  N.of_nat (length (w_ul w)) < 2 ^ 32 ->
  In d (asked_to_unstake w (fst (step w (OTx u eg pays (UnDelegatePending o))))) ->
  In c (w_ul w) -> ahead c (w_ul w) < ahead d (w_ul w) -> 0 < net_stake (rec w c) ->
  undel_candidates w (default (unstake_queue w) o) l -> In c l /\ In d l.
Proof. exact not_passed_over_un. Qed.
Print Assumptions C93_not_passed_over_unstaking.

Example C93_not_passed_over_unstaking_case :
  Reachable w_redeemed /\ snd (step w_redeemed (OTx 100 0 [] (UnDelegatePending None))) = SOk
  /\ asked_to_unstake w_redeemed (fst (step w_redeemed (OTx 100 0 [] (UnDelegatePending None)))) = [1000; 1001]
  /\ ahead 1000 (w_ul w_redeemed) < ahead 1001 (w_ul w_redeemed) /\ 0 < net_stake (rec w_redeemed 1000)
  /\ exists l, undel_candidates w_redeemed (unstake_queue w_redeemed) l.
Proof.
  split; [exact w_redeemed_reach|]. do 4 (split; [vm_compute; reflexivity|]).
  edestruct (undel_candidates_picked w_redeemed 100 0 [] None w_redeemed_reach) as (l & H & _);
    [vm_compute; reflexivity|vm_compute; reflexivity|by exists l].
Qed.
