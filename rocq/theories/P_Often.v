(** P_Often.v — property C133: when and how often the fees are claimed does not matter. *)
From Verif Require Import L_Often Scenario.

(** C133 Take any history and leave out the claims of the fees. Every other action ends
    with the same status and pays the same EGLD to everybody, and at the end every part of
    the state is the same, except that the fees that had been handed over are still in the
    fee reserve and in the balance. So claiming fees early, late, often or never changes
    nothing for anybody but their receiver. *)
Theorem C133_claims : forall w os, Reachable w ->
  let qs := without_claims os in let z := run w os in let z' := run w qs in let x := tally fee_handed_over w os in
  other_statuses w os = statuses w qs
  /\ (forall y, egld_received y w os = egld_received y w qs)
  /\ fees_reserve z + x = fees_reserve z' /\ contract_egld z + x = contract_egld z'
  /\ forall p, p <> Fees -> p <> Balance -> same p z z'.
Proof. exact often_same. Qed.
Print Assumptions C133_claims.

(** Case: rewards of 3 and 2 EGLD arrive, the fees are claimed after each, once in vain,
    while 500 deposits and redeems and 501 is refused twice. *)
Definition between : list op :=
  [OTx 100 0 [] ClaimRewards; OExec 0 (Some (3 * E)); OCb 0; OTx 9 0 [] (ClaimFees true); OTx 9 0 [] (ClaimFees true);
   OTx 500 (7 * E) [] Delegate; OTx 100 0 [] ClaimRewards; OExec 0 (Some (2 * E)); OCb 0; OTx 501 1 [] (ClaimFees true);
   OTx 500 0 [Pay TokLs (2 * E)] UnDelegate; OTx 501 0 [Pay TokLs (900 * E)] UnDelegate; OTx 7 0 [] (ClaimFees true)].
Example C133_case :
  Reachable w_staked /\ length (without_claims between) = 9%nat
  /\ statuses w_staked between
     = [SOk; SOk; SOk; SOk; SErr EInsufficientFeesReserve; SOk; SOk; SOk; SOk; SErr ENotPayable; SOk; SErr EInvalid; SOk]
  /\ egld_received 500 w_staked between = 2091762182169972028
  /\ tally fee_handed_over w_staked between = 200000000000000000 /\ fees_reserve (run w_staked between) = 0
  /\ fees_reserve (run w_staked (without_claims between)) = 200000000000000000.
Proof. split; [exact w_staked_reach|]. vm_compute. repeat split. Qed.
