(** P_Split.v — property C95: what every provider is asked for, in every case. *)
From Verif Require Import Scenario L_Split.

(** C95 the exact amounts of a delegation batch, computed from the records, the
    scoring configuration and the amount (Spec6.v), whatever the scores, caps and
    shares; what finds no place stays in the queue. *)
Theorem C95_delegation_amounts : forall w u eg pays o sc,
  Reachable w -> snd (step w (OTx u eg pays (DelegatePending o))) = SOk ->
  c_score (w_cfg w) = Some sc -> N.of_nat (length (w_dl w)) < 2 ^ 32 ->
  let w' := fst (step w (OTx u eg pays (DelegatePending o))) in
  let b := delegation_amounts w sc (default (pending_egld w) o) in
  w_calls w' = w_calls w ++ map (fun x => KDeleg (fst x) (snd x)) b
  /\ pending_egld w' + sumN (map snd b) = pending_egld w.
Proof. exact delegation_exact. Qed.
Print Assumptions C95_delegation_amounts.

(** And of an un-delegation batch, also where a share would be below 1 EGLD or leave
    less than 1 EGLD behind. *)
Theorem C95_undelegation_amounts : forall w u eg pays o sc,
  Reachable w -> snd (step w (OTx u eg pays (UnDelegatePending o))) = SOk ->
  c_score (w_cfg w) = Some sc -> N.of_nat (length (w_ul w)) < 2 ^ 32 ->
  let w' := fst (step w (OTx u eg pays (UnDelegatePending o))) in
  let a := default (unstake_queue w) o in
  exists l, undel_candidates w a l
  /\ let b := undelegation_amounts w sc a l in
     w_calls w' = w_calls w ++ map (fun x => KUndel (fst x) (snd x)) b
     /\ unstake_queue w' + sumN (map snd b) = unstake_queue w.
Proof. exact undelegation_exact. Qed.
Print Assumptions C95_undelegation_amounts.

(** Cases: two providers without cap; one that takes 2 EGLD more, so that the other
    gets the rest; an un-delegation of 26 EGLD in which the first provider would be
    left with less than 1 EGLD and gives all it has, so that the other is asked for
    less than 1 EGLD and 0.96 EGLD stay in the queue; and of all, where both are asked. *)
Definition w_capped : world :=
  run w_deposit [OTx 100 0 [] (ChangeParams 1001 (500 * E) (502 * E) 20 900 true)].
Example C95_case :
  Reachable w_deposit /\ Reachable w_capped /\ Reachable w_redeemed
  /\ snd (step w_deposit (OTx 100 0 [] (DelegatePending None))) = SOk
  /\ snd (step w_capped (OTx 100 0 [] (DelegatePending None))) = SOk
  /\ snd (step w_redeemed (OTx 100 0 [] (UnDelegatePending (Some (26 * E))))) = SOk
  /\ snd (step w_redeemed (OTx 100 0 [] (UnDelegatePending None))) = SOk
  /\ delegation_amounts w_deposit scfg_default (100 * E) = [(1000, 24038217711350872307); (1001, 75961782288649127693)]
  /\ delegation_amounts w_capped scfg_default (100 * E) = [(1000, 98 * E); (1001, 2 * E)]
  /\ undelegation_amounts w_redeemed scfg_default (26 * E) [1000; 1001] = [(1000, 25038217711350872307)]
  /\ undelegation_amounts w_redeemed scfg_default 38832941176470588235 [1000; 1001]
     = [(1000, 25038217711350872307); (1001, 13794723465119715928)].
Proof.
  split; [exact w_deposit_reach|]. split; [apply reach_run, w_deposit_reach|]. split; [exact w_redeemed_reach|].
  do 7 (split; [vm_compute; reflexivity|]). vm_compute; reflexivity.
Qed.
