(** P_Exits.v — properties C97 and C98: where the EGLD of the contract can go, and where
    tokens come from. *)
From Verif Require Import Scenario L_Exits.

(** C97. Whatever happens, EGLD leaves the contract only
    - to somebody who hands in LS tokens, at most what they are worth and out of the
      pending EGLD; to somebody who hands in unstake tokens, one for one;
    - back to the account that paid for a whitelisting or a token issue that failed;
    - to the configured accumulator, which gets exactly the fees;
    - to listed providers, asked by an operator; to a provider being whitelisted, from the
      operator's own payment; to the token issuer, from the owner's own payment. *)
Theorem C97_ways_out : forall w o e, In e (w_log (fst (step w o))) -> leaves w o e.
Proof. exact leaves_step. Qed.
Print Assumptions C97_ways_out.

(** Over any history, whoever acts, a group of accounts is sent at most what its members paid
    for whitelistings and token issues (less what may still come back) and what the tokens
    they handed in were good for. *)
Theorem C97_received_at_most : forall (S : group) w os,
  tally (received_by S) w os + may_come_back S (run w os)
  <= tally (advanced_by S) w os + tally (cashed_by S) w os + may_come_back S w.
Proof. exact exits_hist. Qed.
Print Assumptions C97_received_at_most.

(** In particular owner, managers, provider admins and migration contract can do what they
    like: as long as they hand in no tokens they are only ever sent their own payments. *)
Theorem C97_operators_take_nothing : forall (S : group) w os,
  Forall (fun o => ~ cashes_in S o) os ->
  tally (received_by S) w os + may_come_back S (run w os) <= tally (advanced_by S) w os + may_come_back S w.
Proof. exact exits_idle. Qed.
Print Assumptions C97_operators_take_nothing.

(** Case: 600 deposits and redeems, the owner whitelists two providers, of which one refuses
    the payment and one has not answered, and sends the fees to the accumulator. *)
Definition exit_ops : list op :=
  [OTx 600 (7 * E) [] Delegate; OTx 600 0 [Pay TokLs (3 * E)] UnDelegate;
   OTx 100 (2 * E) [] (Whitelist 1002 79 0 0 5 700); OTx 100 (3 * E) [] (Whitelist 1003 79 0 0 5 700);
   OExec 0 None; OCb 0; OTx 100 0 [] (DelegatePending None); OTx 100 0 [] (ClaimFees true)].
Definition both : group := fun u => (u =? 600) || (u =? 100).
Definition staff : group := fun u => u =? 100.
Definition log_after (n : nat) : list eff := w_log (run w_unbonding (firstn n exit_ops)).
Example C97_case :
  Reachable w_unbonding /\ Forall (fun o => ~ cashes_in staff o) exit_ops
  /\ In (XEgld 600 3056470588235294117) (log_after 2) /\ In (XCall (KWhite 1002 (2 * E) 100)) (log_after 3)
  /\ In (XEgld 100 (2 * E)) (log_after 6) /\ In (XCall (KDeleg 1001 3943529411764705883)) (log_after 7)
  /\ log_after 8 = [XDeposit 200 80000000000000000]
  /\ tally (received_by both) w_unbonding exit_ops = 5056470588235294117
  /\ tally (advanced_by both) w_unbonding exit_ops = 5 * E
  /\ tally (cashed_by both) w_unbonding exit_ops = 3056470588235294117
  /\ may_come_back both (run w_unbonding exit_ops) = 3 * E /\ may_come_back both w_unbonding = 0
  /\ tally (received_by staff) w_unbonding exit_ops = 2 * E /\ tally (advanced_by staff) w_unbonding exit_ops = 5 * E
  /\ may_come_back staff (run w_unbonding exit_ops) = 3 * E.
Proof.
  split; [exact w_unbonding_reach|]. split.
  { repeat constructor; vm_compute; intros H; discriminate H || exact H. }
  vm_compute. repeat split; auto 10.
Qed.

(** C98. No account gets LS tokens except by depositing EGLD, by the first stake of a provider
    it whitelisted, as migration contract by migrating, or from another holder; and then
    exactly what the EGLD is worth at the current price. *)
Theorem C98_ls_tokens_appear : forall w o v,
  let w' := fst (step w o) in
  ls_balance v w < ls_balance v w' -> ls_appear w o v (ls_balance v w' - ls_balance v w).
Proof. exact ls_appears. Qed.
Print Assumptions C98_ls_tokens_appear.

(** Nobody gets unstake tokens except by redeeming LS tokens, for exactly the part of their
    worth that is not paid at once, or from another holder. *)
Theorem C98_unstake_tokens_appear : forall w o n v,
  let w' := fst (step w o) in
  v <> SELF -> ust_of n v w < ust_of n v w' -> ust_appear w o w' n v (ust_of n v w' - ust_of n v w).
Proof. exact ust_appears. Qed.
Print Assumptions C98_unstake_tokens_appear.

(** Case: a deposit of 7 EGLD, an accepted whitelisting and a transfer of LS tokens; a
    redemption that is partly paid at once and a transfer of unstake tokens. *)
Definition gain_ls (v : addr) (w : world) (o : op) : N := ls_balance v (fst (step w o)) - ls_balance v w.
Definition gain_ust (n : N) (v : addr) (w : world) (o : op) : N := ust_of n v (fst (step w o)) - ust_of n v w.
Definition w_white : world := run w_rewarded [OTx 100 (2 * E) [] (Whitelist 1002 79 0 0 5 700); OExec 0 (Some 0)].
Example C98_case :
  gain_ls 600 w_unbonding (OTx 600 (7 * E) [] Delegate) = ls_worth w_unbonding (7 * E)
  /\ ls_worth w_unbonding (7 * E) = 6870669745958429561
  /\ gain_ls 100 w_white (OCb 0) = 1963048498845265588
  /\ gain_ls 600 w_unbonding (OMoveLs 500 600 E) = E
  /\ gain_ust 1 500 w_rewarded (OTx 500 0 [Pay TokLs (40 * E)] UnDelegate) = 38832941176470588235
  /\ egld_sent 500 (fst (step w_rewarded (OTx 500 0 [Pay TokLs (40 * E)] UnDelegate))) = 1920000000000000000
  /\ egld_worth w_rewarded (40 * E) = 40752941176470588235
  /\ gain_ust 1 600 w_redeemed (OMoveUst 1 500 600 E) = E.
Proof. vm_compute. repeat split. Qed.
