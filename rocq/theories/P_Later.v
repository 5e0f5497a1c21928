(** P_Later.v — property C132: when a withdrawal is made does not matter. *)
From Verif Require Import L_Later Scenario.

(** C132 A withdrawal that the pot covers may as well be made later. Whatever happens
    meanwhile — deposits and redemptions of anybody, the same user included, batches,
    replies, rewards, settings, failures, other withdrawals the pot covers — every action
    ends with the same status and pays the same EGLD to everybody whether the withdrawal
    was made before or not; and made afterwards, with the contract active, it is accepted,
    pays the same, and leaves every part of the state the same. *)
Theorem C132_any_time : forall w u l os, Reachable w ->
  let a := OTx u 0 l Withdraw in let w1 := fst (step w a) in
  snd (step w a) = SOk -> pay_total l <= total_withdrawn w ->
  along (fun w o => keeps_unstake_tokens u o /\ pot_covers w o) w1 os ->
  statuses w1 os = statuses w os /\ (forall y, egld_received y w1 os = egld_received y w os)
  /\ (c_active (w_cfg (run w os)) = true ->
      snd (step (run w os) a) = SOk /\ egld_sent u w1 = pay_total l /\ egld_sent u (fst (step (run w os) a)) = pay_total l
      /\ forall p, same p (run w1 os) (fst (step (run w os) a))).
Proof. exact later_same. Qed.
Print Assumptions C132_any_time.

(** Case: 500 can withdraw 20 EGLD at once, or after depositing again, a redemption, a
    batch with its reply, another withdrawal of 10 EGLD by 501, and ten epochs. *)
Definition w_shared : world := run w_ready [OMoveUst 1 500 501 (10 * E); OMoveLs 500 501 (5 * E)].
Definition meanwhile : list op :=
  [OTx 500 (7 * E) [] Delegate; OTx 501 0 [Pay TokLs (2 * E)] UnDelegate; OTx 100 0 [] (DelegatePending None);
   OExec 0 (Some 0); OCb 0; OTx 501 0 [Pay (TokUst 1) (10 * E)] Withdraw; OEpoch 10; OTx 9 E [] AddRewards].
Definition keeps_b (u : addr) (o : op) : bool :=
  match o with
  | OTx y _ ps _ => negb (y =? u) || forallb (fun p => match y_tok p with TokUst _ => false | _ => true end) ps
  | OMoveUst _ y _ _ => negb (y =? u)
  | _ => true
  end.
Definition covers_b (w : world) (o : op) : bool :=
  match o with OTx _ _ ps Withdraw => pay_total ps <=? total_withdrawn w | _ => true end.
Fixpoint calm_b (u : addr) (w : world) (os : list op) : bool :=
  match os with [] => true | o :: r => keeps_b u o && covers_b w o && calm_b u (fst (step w o)) r end.
Lemma calm u w os : calm_b u w os = true -> along (fun w o => keeps_unstake_tokens u o /\ pot_covers w o) w os.
Proof.
  revert w. induction os as [|o os IH]; intros w H; cbn [calm_b along] in *; [done|].
  apply andb_true_iff in H as [H H2]. apply andb_true_iff in H as [H H1]. split; [split|by apply IH].
  - destruct o as [y e ps ep| | | | |n y t b| | | |]; try done; cbn in *.
    + intros ->. rewrite N.eqb_refl in H. cbn in H. apply List.Forall_forall. intros p Hp. rewrite forallb_forall in H. specialize (H p Hp). by destruct (y_tok p).
    + intros ->. by rewrite N.eqb_refl in H.
  - destruct o as [y e ps ep| | | | | | | | |]; try done. destruct ep; try done. cbn in *. by apply N.leb_le.
Qed.
Example C132_case :
  Reachable w_shared
  /\ let a := OTx 500 0 [Pay (TokUst 1) (20 * E)] Withdraw in let w1 := fst (step w_shared a) in
  snd (step w_shared a) = SOk /\ total_withdrawn w_shared = 38832941176470588235
  /\ along (fun w o => keeps_unstake_tokens 500 o /\ pot_covers w o) w1 meanwhile
  /\ statuses w1 meanwhile = [SOk; SOk; SOk; SOk; SOk; SOk; SOk; SOk]
  /\ c_active (w_cfg (run w_shared meanwhile)) = true /\ egld_received 501 w1 meanwhile = 12037647058823529411.
Proof.
  split; [apply reach_run, w_ready_reach|]. cbv zeta. split; [by vm_compute|]. split; [by vm_compute|].
  split; [apply calm; by vm_compute|]. vm_compute. repeat split.
Qed.

(** The pot must cover it: with 25.04 EGLD in the pot and 15 EGLD withdrawn by 501
    meanwhile, 500 gets 10.04 EGLD instead of 20. *)
Definition w_scarce : world :=
  run w_unbonding [OEpoch 10; OTx 100 0 [] (WithdrawPending 1000); OExec 0 (Some 25038217711350872307); OCb 0; OMoveUst 1 500 501 (15 * E)].
Example C132_covered_needed :
  let a := OTx 500 0 [Pay (TokUst 1) (20 * E)] Withdraw in let b := OTx 501 0 [Pay (TokUst 1) (15 * E)] Withdraw in
  Reachable w_scarce /\ total_withdrawn (fst (step w_scarce a)) = 5038217711350872307
  /\ egld_sent 500 (fst (step w_scarce a)) = 20 * E /\ egld_sent 500 (run w_scarce [b; a]) = 10038217711350872307.
Proof. cbv zeta. split; [apply reach_run, w_unbonding_reach|]. vm_compute. repeat split. Qed.
