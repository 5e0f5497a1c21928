(** P_Own.v — property C121: the contract's own unstake tokens and its table of nonces. *)
From Verif Require Import Scenario L_Own.

(** C121. The contract itself holds exactly one unit of every unstake token that is in its
    table, and none of any other, apart from units that somebody transferred to it. *)
Theorem C121_own_units : forall w os n,
  Deployed w -> let v := run w os in
  (in_table n v -> ust_of n SELF v = 1 + tally (ust_gift n) w os)
  /\ (~ in_table n v -> ust_of n SELF v <= tally (ust_gift n) w os).
Proof. exact own_units. Qed.
Print Assumptions C121_own_units.

(** C121. A nonce is in the table exactly if it is the last one or the next one was created
    in the same epoch; the entry is under its unbonding epoch and nowhere else. *)
Theorem C121_table : forall w n,
  Reachable w ->
  (in_table n w -> 1 <= n <= w_last w)
  /\ (1 <= n <= w_last w -> exists s k, w_attr w !! n = Some (s, k)
      /\ (forall k', w_un w !! k' = Some n -> k' = k)
      /\ (in_table n w <-> n = w_last w \/ exists k', w_attr w !! (n + 1) = Some (s, k'))).
Proof. exact table_rule. Qed.
Print Assumptions C121_table.

(** C121. So an entry that outlived the next nonce stays for good, and one that was removed
    does not come back. *)
Theorem C121_final : forall w os n,
  Reachable w -> 1 <= n -> n < w_last w -> (in_table n (run w os) <-> in_table n w).
Proof. exact table_final. Qed.
Print Assumptions C121_final.

(** Case: two redemptions in epoch 5 with different unbonding periods, two in epoch 6; 7
    units of the first token and 4 of the second are sent to the contract. The second token
    is cleaned when the third is created, the first never. *)
Definition own_ops : list op :=
  setup_ops ++ deposit_ops ++ stake_ops ++ redeem_ops
  ++ [OTx 100 0 [] (SetUnbondPeriod 11); OTx 500 0 [Pay TokLs (2 * E)] UnDelegate; OMoveUst 1 500 SELF 7;
      OEpoch 1; OTx 500 0 [Pay TokLs (3 * E)] UnDelegate; OTx 500 0 [Pay TokLs (2 * E)] UnDelegate; OMoveUst 2 500 SELF 4].
Definition w_own : world := run w0 own_ops.
Example C121_case :
  Deployed w0 /\ Reachable w_own /\ w_last w_own = 3
  /\ map_to_list (w_un w_own) = [(15, 1); (17, 3)]
  /\ (w_attr w_own !! 1, w_attr w_own !! 2, w_attr w_own !! 3) = (Some (5, 15), Some (5, 16), Some (6, 17))
  /\ map (fun n => ust_of n SELF w_own) [1; 2; 3; 4] = [8; 4; 1; 0]
  /\ map (fun n => tally (ust_gift n) w0 own_ops) [1; 2; 3; 4] = [7; 4; 0; 0].
Proof.
  split; [exact w0_is_deployed|]. split; [apply reach_run, w0_reach|].
  repeat match goal with |- _ /\ _ => split end; vm_compute; reflexivity.
Qed.
