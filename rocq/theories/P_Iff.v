(** P_Iff.v — properties C85 to C87: exactly when the two batch operations are
    accepted, and which unstake token a redemption gives. *)
From Verif Require Import Scenario L_Iff L_Same.

(** C85 delegatePending is accepted exactly when an operator asks, without a
    payment, for an amount that fits the queue, there is a candidate, no provider
    looked at reports more stake than its cap, and every candidate can be rated:
    neither the node range nor the APY range is a single point on which the
    provider sits. *)
Theorem C85_delegate_batch_accepted : forall w u eg pays o,
  Reachable w -> N.of_nat (length (w_dl w)) < 2 ^ 32 ->
  let a := default (pending_egld w) o in
  snd (step w (OTx u eg pays (DelegatePending o))) = SOk
  <-> eg = 0 /\ pays = [] /\ operator u w /\ fits_queue o (pending_egld w) /\ candidates w a <> []
    /\ (forall l1 c l2, w_dl w = l1 ++ c :: l2 ->
          N.of_nat (length (List.filter (fun d => takes_more (rec w d)) l1)) < N.min (a / ONE_EGLD) (c_maxsel (w_cfg w)) ->
          within_cap (rec w c))
    /\ exists sc, c_score (w_cfg w) = Some sc /\ forall c, In c (candidates w a) -> ratable sc (rec w c).
Proof. exact delegate_pending_iff. Qed.
Print Assumptions C85_delegate_batch_accepted.

(** Case: 100 EGLD wait for two providers and the batch is accepted. With the node
    range set to the node count of the first provider it is rejected, even though
    that provider could be skipped. *)
Definition sc_point (w : world) : scfg :=
  let n := p_nodes (rec w 1000) in
  Scfg n n (k_min_apy scfg_default) (k_max_apy scfg_default) (k_stake_w scfg_default) (k_apy_w scfg_default)
    (k_nodes_w scfg_default) (k_max_score scfg_default) (k_exp scfg_default) (k_apy_mul scfg_default).
Definition w_point : world := fst (step w_deposit (OTx 100 0 [] (SetScoringConfig (sc_point w_deposit)))).
Example C85_case :
  Reachable w_deposit /\ Reachable w_point
  /\ snd (step w_deposit (OTx 100 0 [] (DelegatePending None))) = SOk
  /\ w_dl w_point = [1000; 1001] /\ c_score (w_cfg w_point) = Some (sc_point w_deposit)
  /\ p_nodes (rec w_point 1001) <> p_nodes (rec w_point 1000)
  /\ ~ ratable (sc_point w_deposit) (rec w_point 1000)
  /\ snd (step w_point (OTx 100 0 [] (DelegatePending None))) <> SOk.
Proof.
  split; [exact w_deposit_reach|]. split; [apply reach_step, w_deposit_reach|].
  vm_compute. repeat split; try discriminate. intros [H _]. by apply H.
Qed.

(** C86 unDelegatePending, in the same way: the configured number of providers fits
    64 bits (and only its lowest 32 bits limit the candidates, Spec2.v), the providers looked at may not have
    more requested back than delegated, each of the candidates holds at least
    1 EGLD and can be rated. *)
Theorem C86_undelegate_batch_accepted : forall w u eg pays o,
  Reachable w -> N.of_nat (length (w_ul w)) < 2 ^ 32 ->
  let a := default (unstake_queue w) o in
  let staked l := List.filter (fun c => 0 <? net_stake (rec w c)) l in
  snd (step w (OTx u eg pays (UnDelegatePending o))) = SOk
  <-> eg = 0 /\ pays = [] /\ operator u w /\ fits_queue o (unstake_queue w)
    /\ c_maxsel (w_cfg w) < 2 ^ 64
    /\ (forall l1 c l2, w_ul w = l1 ++ c :: l2 ->
          N.of_nat (length (staked l1)) < undel_limit w -> ~ enough w a (staked l1) ->
          p_pun (rec w c) <= p_staked (rec w c) + p_pst (rec w c))
    /\ exists l sc, undel_candidates w a l /\ l <> [] /\ c_score (w_cfg w) = Some sc
       /\ forall c, In c l -> ONE_EGLD <= net_stake (rec w c) /\ ratable sc (rec w c).
Proof. exact undelegate_pending_iff. Qed.
Print Assumptions C86_undelegate_batch_accepted.

(** Case: the redemptions of the example history, accepted; rejected when the node
    range is the node count of the first provider. *)
Definition w_point_back : world := fst (step w_redeemed (OTx 100 0 [] (SetScoringConfig (sc_point w_redeemed)))).
Example C86_case :
  Reachable w_redeemed /\ Reachable w_point_back /\ ONE_EGLD <= unstake_queue w_redeemed
  /\ snd (step w_redeemed (OTx 100 0 [] (UnDelegatePending None))) = SOk
  /\ c_score (w_cfg w_point_back) = Some (sc_point w_redeemed)
  /\ ~ ratable (sc_point w_redeemed) (rec w_point_back 1000)
  /\ snd (step w_point_back (OTx 100 0 [] (UnDelegatePending None))) <> SOk.
Proof.
  split; [exact w_redeemed_reach|]. split; [apply reach_step, w_redeemed_reach|].
  vm_compute. repeat split; try discriminate. intros [H _]. by apply H.
Qed.

(** C87 Two unstake tokens never stand for the same pair of redemption and release
    epoch; and redemptions of one epoch under one unbonding period are given the
    same token, whoever makes them and whatever happens in between. *)
Theorem C87_one_token : forall w n m a,
  Reachable w -> w_attr w !! n = Some a -> w_attr w !! m = Some a -> n = m.
Proof. exact one_token. Qed.
Print Assumptions C87_one_token.

Theorem C87_same_token : forall w u x os u' x' n m v v',
  let w1 := fst (step w (OTx u 0 [Pay TokLs x] UnDelegate)) in
  let w2 := run w1 os in
  let w3 := fst (step w2 (OTx u' 0 [Pay TokLs x'] UnDelegate)) in
  Reachable w -> Forall same_epoch os -> Forall keeps_period os -> v <> SELF -> v' <> SELF ->
  ust_of n v w < ust_of n v w1 -> ust_of m v' w2 < ust_of m v' w3 -> n = m.
Proof. exact same_token. Qed.
Print Assumptions C87_same_token.

(** Case: two redemptions with a delegation in between. Token 1 for both, token 2
    for one of the next epoch. *)
Definition same_ops : list op := [OTx 501 (3 * E) [] Delegate; ODonate 7].
Definition w_same1 : world := fst (step w_rewarded (OTx 500 0 [Pay TokLs (20 * E)] UnDelegate)).
Definition w_same2 : world := run w_same1 same_ops.
Definition w_same3 : world := fst (step w_same2 (OTx 500 0 [Pay TokLs (30 * E)] UnDelegate)).
Definition w_same4 : world := fst (step (run w_same3 [OEpoch 20]) (OTx 500 0 [Pay TokLs (9 * E)] UnDelegate)).
Example C87_case :
  Reachable w_rewarded /\ Forall same_epoch same_ops /\ Forall keeps_period same_ops
  /\ ust_of 1 500 w_rewarded < ust_of 1 500 w_same1 /\ ust_of 1 500 w_same2 < ust_of 1 500 w_same3
  /\ ust_of 2 500 w_same3 < ust_of 2 500 w_same4
  /\ w_attr w_same4 !! 1 <> None /\ w_attr w_same4 !! 2 <> None /\ w_attr w_same4 !! 1 <> w_attr w_same4 !! 2.
Proof.
  split; [exact w_rewarded_reach|]. vm_compute. repeat split; try discriminate; repeat constructor.
Qed.
