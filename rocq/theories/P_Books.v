(** P_Books.v — properties C71 to C75: books over whole histories. *)
From Verif Require Import Scenario L_Books.

(** C71 the balance is explained: after any history the EGLD balance of the
    contract is exactly the sum of the three pots plus everything that ever
    arrived without being booked. *)
Theorem C71_balance_explained : forall w os,
  Deployed w ->
  contract_egld (run w os)
  = pending_egld (run w os) + total_withdrawn (run w os) + fees_reserve (run w os) + tally arrives_unbooked w os.
Proof. exact books_history. Qed.
Print Assumptions C71_balance_explained.

(** Case: after the standard history, a plain transfer of 3 EGLD and 5 units sent
    along with an empty withdraw, the contract holds exactly 3 EGLD and 5 more than its pots. *)
Definition unbooked_ops : list op :=
  unbonding_ops ++ ready_ops ++ [ODonate (3 * E); OTx 500 5 [] Withdraw].
Example C71_case :
  Deployed w0 /\ forallb ok_b (statuses w0 unbooked_ops) = true
  /\ tally arrives_unbooked w0 unbooked_ops = 3 * E + 5
  /\ contract_egld (run w0 unbooked_ops) = 41912941176470588240 /\ 0 < fees_reserve (run w0 unbooked_ops)
  /\ 0 < total_withdrawn (run w0 unbooked_ops).
Proof. split; [exact w0_is_deployed|]. vm_compute. repeat split; try reflexivity; discriminate. Qed.

(** C72 fees: over any history the fees kept plus the fees handed to the
    accumulator are exactly the configured share of the rewards booked, each share
    rounded down. *)
Theorem C72_fees_explained : forall w os,
  Deployed w -> fees_reserve (run w os) + tally fee_handed_over w os = tally fee_earned w os.
Proof. exact fees_history. Qed.
Print Assumptions C72_fees_explained.

(** Case: rewards of 2 EGLD at 4%, collected; then 3 EGLD at 7%, kept. *)
Definition fee_ops : list op :=
  setup_ops ++ deposit_ops ++ stake_ops ++ reward_ops
  ++ [OTx 100 0 [] (ClaimFees true); OTx 100 0 [] (SetFees 700); OTx 100 0 [] ClaimRewards; OExec 0 (Some (3 * E)); OCb 0].
Example C72_case :
  Deployed w0 /\ forallb ok_b (statuses w0 fee_ops) = true
  /\ tally fee_handed_over w0 fee_ops = 80000000000000000 /\ fees_reserve (run w0 fee_ops) = 210000000000000000
  /\ tally fee_earned w0 fee_ops = 290000000000000000.
Proof. split; [exact w0_is_deployed|]. vm_compute. repeat split. Qed.

(** C73 no EGLD is created or destroyed: over any history the EGLD held by the
    contract, staked or unbonding at providers, and travelling either way, plus all
    EGLD that left, equals all EGLD that came in. *)
Theorem C73_no_egld_lost : forall w os,
  Deployed w ->
  contract_egld (run w os) + at_providers (run w os) + under_way (run w os) + on_way_back (run w os) + tally egld_out w os
  = tally egld_in w os.
Proof. exact whole_history. Qed.
Print Assumptions C73_no_egld_lost.

(** Case: in the middle of a history, with calls out and replies not delivered. *)
Definition midway_ops : list op :=
  fee_ops ++ [OTx 500 (50 * E) [] Delegate; OTx 100 0 [] (DelegatePending None); OExec 1 None].
Example C73_case :
  Deployed w0 /\ forallb ok_b (statuses w0 midway_ops) = true
  /\ 0 < contract_egld (run w0 midway_ops) /\ at_providers (run w0 midway_ops) = 102 * E
  /\ 0 < under_way (run w0 midway_ops) /\ 0 < on_way_back (run w0 midway_ops)
  /\ tally egld_out w0 midway_ops = 80000000000000000 + 10 /\ tally egld_in w0 midway_ops = 157 * E + 10.
Proof. split; [exact w0_is_deployed|]. vm_compute. repeat split. Qed.

(** C74 holding is safe: over any history in which an account initiates nothing,
    the EGLD its LS tokens are worth never falls. *)
Theorem C74_holding_is_safe : forall w os u,
  Reachable w -> u <> SELF -> Forall (fun o => initiator o <> Some u) os ->
  egld_worth w (ls_balance u w) <= egld_worth (run w os) (ls_balance u (run w os)).
Proof. exact holder_history. Qed.
Print Assumptions C74_holding_is_safe.

(** Case: user 500 does nothing while another account deposits and redeems and
    rewards arrive; the 60 tokens left gain value. *)
Definition others_ops : list op :=
  [OTx 600 (7 * E) [] Delegate; OTx 600 0 [Pay TokLs (3 * E)] UnDelegate;
   OTx 100 0 [] ClaimRewards; OExec 0 (Some (2 * E)); OCb 0].
Example C74_case :
  Reachable w_unbonding /\ (500 : N) <> SELF /\ Forall (fun o => initiator o <> Some 500) others_ops
  /\ forallb ok_b (statuses w_unbonding others_ops) = true
  /\ ls_balance 500 w_unbonding = 60 * E
  /\ egld_worth w_unbonding (ls_balance 500 w_unbonding) + E
     <= egld_worth (run w_unbonding others_ops) (ls_balance 500 (run w_unbonding others_ops)).
Proof.
  split; [exact w_unbonding_reach|]. split; [discriminate|]. split; [repeat constructor; discriminate|].
  vm_compute. repeat split; discriminate.
Qed.

(** C75 the books of a provider: they move only in the listed ways, each by the
    exact amount of the call answered; a record appears only by whitelisting, empty,
    and goes only when the whitelisting delegation failed. *)
Theorem C75_books_move : forall w o c p p',
  w_pv w !! c = Some p -> w_pv (fst (step w o)) !! c = Some p' -> books_move w o c p p'.
Proof. exact records_step. Qed.
Print Assumptions C75_books_move.

Theorem C75_record_appears : forall w o c p',
  w_pv w !! c = None -> w_pv (fst (step w o)) !! c = Some p' ->
  exists u x admin total cap nodes apy, o = OTx u x [] (Whitelist c admin total cap nodes apy) /\ snd (step w o) = SOk
    /\ p' = Prov admin total cap nodes apy 0 0 true 0 0.
Proof. exact record_new. Qed.
Print Assumptions C75_record_appears.

Theorem C75_record_goes : forall w o c,
  is_Some (w_pv w !! c) -> w_pv (fst (step w o)) !! c = None -> exists a u, delivers w o (KWhite c a u) false.
Proof. exact record_gone. Qed.
Print Assumptions C75_record_goes.

(** Case: a failed delegation clears the amount in flight and the eligibility and
    nothing else; a refused whitelisting removes the record it had made. *)
Definition refused_ops : list op :=
  [OTx 100 0 [] (DelegatePending None); OExec 0 None].
Definition w_refused : world := run w_deposit refused_ops.
Definition at_1000 (w : world) : option (bool * N * N * N * N) := books <$> w_pv w !! (1000 : N).
Definition w_asked : world := run w_setup [OTx 100 E [] (Whitelist 1002 79 0 0 10 800)].
Definition w_denied : world := run w_asked [OExec 0 None].
Example C75_case :
  let w' := fst (step w_refused (OCb 0)) in
  (exists a, delivers w_refused (OCb 0) (KDeleg 1000 a) false)
  /\ at_1000 w_deposit = Some (true, E, 0, 0, 0)
  /\ at_1000 w_refused = Some (true, E, 0, 24038217711350872307, 0)
  /\ at_1000 w' = Some (false, E, 0, 0, 0)
  /\ w_pv w_setup !! (1002 : N) = None
  /\ w_pv w_asked !! (1002 : N) = Some (Prov 79 0 0 10 800 0 0 true 0 0)
  /\ w_pv (fst (step w_denied (OCb 0))) !! (1002 : N) = None /\ snd (step w_denied (OCb 0)) = SOk.
Proof.
  cbv zeta. split.
  { eexists. exists 0%nat, RFail. vm_compute. repeat split. }
  vm_compute. repeat split.
Qed.
