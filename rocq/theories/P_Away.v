(** P_Away.v — property C134: withdrawals concern nobody else. *)
From Verif Require Import L_Away Scenario.

(** C134 Take any history, in which nobody spends unstake tokens otherwise than by
    withdrawing them or transferring what they have, and no EGLD comes with a withdrawal.
    Leave out the withdrawals, be they paid in full, in part or not at all. Every other
    action ends with the same status; everybody receives the same EGLD, but for what the
    withdrawals paid them; and at the end every part of the state is the same, except that
    what was paid is still in the pot and in the balance, and the tokens given up for it
    are still with their holders. *)
Theorem C134_withdrawals : forall w os, Reachable w -> along spends_properly w os ->
  let qs := without_withdrawals os in let z := run w os in let z' := run w qs in let x := tally withdrawal w os in
  statuses_besides w os = statuses w qs
  /\ (forall y, egld_received y w os = egld_received y w qs + tally (withdrawn_by y) w os)
  /\ total_withdrawn z + x = total_withdrawn z' /\ contract_egld z + x = contract_egld z'
  /\ (forall n y, ust_of n y z + tally (tokens_given n y) w os = ust_of n y z')
  /\ forall p, match p with Pot | Balance | UstOf _ _ => False | _ => True end -> same p z z'.
Proof. exact away_same. Qed.
Print Assumptions C134_withdrawals.

(** Case: with 25.04 EGLD in the pot, 500 withdraws 20 and 501 only gets a third of the 15
    it asks for; then the pot is empty and a withdrawal is refused. Between these there are a
    deposit, redemptions, a batch with its reply and a transfer of unstake tokens. *)
Definition w_low : world :=
  run w_unbonding [OEpoch 10; OTx 100 0 [] (WithdrawPending 1000); OExec 0 (Some 25038217711350872307); OCb 0; OMoveUst 1 500 501 (15 * E); OMoveLs 500 501 (5 * E)].
Definition mixed : list op :=
  [OTx 500 (7 * E) [] Delegate; OTx 500 0 [Pay (TokUst 1) (20 * E)] Withdraw; OTx 501 0 [Pay TokLs (2 * E)] UnDelegate; OTx 100 0 [] (DelegatePending None);
   OExec 0 (Some 0); OCb 0; OTx 501 0 [Pay (TokUst 1) (15 * E)] Withdraw; OMoveUst 1 501 500 (4 * E); OTx 500 0 [Pay (TokUst 1) (4 * E)] Withdraw; OTx 500 0 [Pay TokLs (3 * E)] UnDelegate].
Definition properly_b (w : world) (o : op) : bool :=
  match o with
  | OTx _ e _ Withdraw => e =? 0
  | OTx _ _ ps _ => forallb (fun p => match y_tok p with TokUst _ => false | _ => true end) ps
  | OMoveUst n u _ a => a <=? ust_of n u w
  | _ => true
  end.
Fixpoint proper_b (w : world) (os : list op) : bool :=
  match os with [] => true | o :: r => properly_b w o && proper_b (fst (step w o)) r end.
Lemma proper w os : proper_b w os = true -> along spends_properly w os.
Proof.
  revert w. induction os as [|o os IH]; intros w H; cbn [proper_b along] in *; [done|].
  apply andb_true_iff in H as [H H1]. split; [|by apply IH].
  assert (K : forall ps, forallb (fun p => match y_tok p with TokUst _ => false | _ => true end) ps = true ->
    Forall (fun p => match y_tok p with TokUst _ => False | _ => True end) ps).
  { intros ps Q. apply List.Forall_forall. intros p Hp. rewrite forallb_forall in Q. specialize (Q p Hp). by destruct (y_tok p). }
  destruct o as [y e ps ep| | | | | | | | |]; try done; cbn in *; [destruct ep; try (by apply K); lia|lia].
Qed.
Example C134_case :
  Reachable w_low /\ along spends_properly w_low mixed /\ length (without_withdrawals mixed) = 7%nat
  /\ statuses w_low mixed = [SOk; SOk; SOk; SOk; SOk; SOk; SOk; SOk; SErr EInsufficientUnbonded; SOk]
  /\ tally withdrawal w_low mixed = 25038217711350872307
  /\ tally (withdrawn_by 500) w_low mixed = 20 * E /\ tally (withdrawn_by 501) w_low mixed = 5038217711350872307
  /\ tally (tokens_given 1 501) w_low mixed = 5038217711350872307
  /\ egld_received 501 w_low (without_withdrawals mixed) = 2037647058823529411.
Proof.
  split; [apply reach_run, w_unbonding_reach|]. split; [apply proper; by vm_compute|]. vm_compute. repeat split.
Qed.
