(** P_Pot.v — property C104: what a waiting holder of unstake tokens can count on. *)
From Verif Require Import Scenario L_Pot.

(** C104 the pot lasts: the EGLD set aside for withdrawals leaves by withdrawals only,
    whatever happens. *)
Theorem C104_pot_lasts : forall w os,
  total_withdrawn w <= total_withdrawn (run w os) + tally withdrawal w os.
Proof. exact pot_lasts. Qed.
Print Assumptions C104_pot_lasts.

(** So a holder whose claim fits the pot beside what others withdraw in the meantime is
    paid in full, however late: nothing anybody else does takes it away, except pausing
    the contract. *)
Theorem C104_paid_later : forall w os u e pays,
  Reachable w -> u <> SELF -> Forall (fun o => initiator o <> Some u) os ->
  c_lstok (w_cfg w) = TIssued -> c_usttok (w_cfg w) = TIssued ->
  all_due w e pays -> (forall n, pay_of_nonce n pays <= ust_of n u w) ->
  pay_total pays + tally withdrawal w os <= total_withdrawn w ->
  let v := run w os in
  c_active (w_cfg v) = true -> e <= w_epoch v ->
  snd (step v (OTx u 0 pays Withdraw)) = SOk /\ egld_sent u (fst (step v (OTx u 0 pays Withdraw))) = pay_total pays.
Proof. exact counts_on. Qed.
Print Assumptions C104_paid_later.

(** Two withdrawals for which the pot suffices do not get in each other's way: both work
    in either order, pay the same, and lead to the same state in every part. *)
Theorem C104_order_irrelevant : forall w u v pu pv,
  let a := OTx u 0 pu Withdraw in let b := OTx v 0 pv Withdraw in
  Reachable w -> u <> v -> snd (step w a) = SOk -> snd (step w b) = SOk ->
  pay_total pu + pay_total pv <= total_withdrawn w ->
  statuses w [a; b] = [SOk; SOk] /\ statuses w [b; a] = [SOk; SOk]
  /\ egld_sent v (run w [a; b]) = pay_total pv /\ egld_sent u (run w [b; a]) = pay_total pu
  /\ forall p, same p (run w [a; b]) (run w [b; a]).
Proof. exact withdrawals_commute. Qed.
Print Assumptions C104_order_irrelevant.

(** Case: 38.8 EGLD are in the pot. User 500 has given 10 of its tokens to user 600, who
    withdraws; an operator claims rewards, user 600 deposits and redeems. User 500 is
    still paid 28 EGLD; and the two withdrawals may change places. *)
Definition w_two : world := run w_ready [OMoveUst 1 500 600 (10 * E)].
Definition w600 : op := OTx 600 0 [Pay (TokUst 1) (10 * E)] Withdraw.
Definition w500 : op := OTx 500 0 [Pay (TokUst 1) (28 * E)] Withdraw.
Definition meanwhile : list op :=
  [w600; OTx 100 0 [] ClaimRewards; OExec 0 (Some (3 * E)); OCb 0; OTx 600 (9 * E) [] Delegate;
   OTx 600 0 [Pay TokLs (4 * E)] UnDelegate; OEpoch 3].
Example C104_case :
  Reachable w_two /\ total_withdrawn w_two = 38832941176470588235
  /\ Forall (fun o => initiator o <> Some 500) meanwhile /\ forallb ok_b (statuses w_two meanwhile) = true
  /\ tally withdrawal w_two meanwhile = 10 * E /\ total_withdrawn (run w_two meanwhile) = 28832941176470588235
  /\ all_due w_two 15 [Pay (TokUst 1) (28 * E)] /\ 28 * E <= ust_of 1 500 w_two /\ w_epoch (run w_two meanwhile) = 18
  /\ c_active (w_cfg (run w_two meanwhile)) = true
  /\ egld_sent 500 (run w_two (meanwhile ++ [w500])) = 28 * E
  /\ statuses w_two [w500; w600] = [SOk; SOk] /\ egld_sent 600 (run w_two [w500; w600]) = 10 * E.
Proof.
  split; [apply reach_run, w_ready_reach|]. split; [vm_compute; reflexivity|].
  split; [repeat constructor; discriminate|].
  split; [vm_compute; reflexivity|]. split; [vm_compute; reflexivity|]. split; [vm_compute; reflexivity|].
  split; [constructor; [|constructor]; split; [reflexivity|]; exists 1, 15; repeat split; vm_compute; first [reflexivity|discriminate]|].
  repeat split; vm_compute; first [reflexivity|discriminate].
Qed.
