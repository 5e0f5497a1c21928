(** P_Leave.v — property C105: everybody can leave together. *)
From Verif Require Import Scenario L_Settle L_Leave.

(** C105 everybody can leave together: from a quiet point of an orderly history, after the
    release epochs have come, an operator has collected and one deposit has covered the
    queue, any list of withdrawals in which nobody hands in more than the tokens held is
    carried out, each in full. The list may contain all tokens of all users. *)
Theorem C105_together : forall w0 os m d a e l,
  Deployed w0 -> along orderly w0 os ->
  let w := run w0 os in
  quiet w -> operator m w -> c_usttok (w_cfg w) = TIssued -> d <> SELF ->
  unstake_queue w + ONE_EGLD <= a -> 0 < ls_worth w a -> w_epoch w + e < 2 ^ 64 ->
  Forall (fun x => fst x <> SELF /\ all_due w (w_epoch w + e) (snd x)) l ->
  (forall n u, brought n u l <= ust_of n u w) ->
  let first := OEpoch e :: collect m w ++ [OTx d a [] Delegate] in
  Forall (eq SOk) (statuses w (first ++ cash_out l))
  /\ payments (run w first) l = map (fun x => pay_total (snd x)) l.
Proof. exact all_leave. Qed.
Print Assumptions C105_together.

(** It works from any point, with calls and replies under way: they are settled first
    (C100), whatever the providers answer. *)
Theorem C105_from_anywhere : forall w0 os outs m d a e l,
  Deployed w0 -> along orderly w0 os ->
  let w := run w0 os in let v := run w (settle w outs) in
  c_fees (w_cfg w) <= 10000 -> Forall no_whitelisting (unanswered w) ->
  length outs = length (w_calls w) -> Forall (eq SOk) (statuses w (map (OExec 0) outs)) ->
  operator m w -> c_usttok (w_cfg w) = TIssued -> d <> SELF ->
  unstake_queue v + ONE_EGLD <= a -> 0 < ls_worth v a -> w_epoch w + e < 2 ^ 64 ->
  Forall (fun x => fst x <> SELF /\ all_due w (w_epoch w + e) (snd x)) l ->
  (forall n u, brought n u l <= ust_of n u w) ->
  let first := settle w outs ++ OEpoch e :: collect m v ++ [OTx d a [] Delegate] in
  Forall (eq SOk) (statuses w (first ++ cash_out l))
  /\ payments (run w first) l = map (fun x => pay_total (snd x)) l.
Proof. exact all_leave_anywhere. Qed.
Print Assumptions C105_from_anywhere.

(** Case: one un-delegation is out and one reply is waiting. Provider 1000 refuses; a
    deposit of 40 EGLD covers the queue, and 500 and 600, who has got 8 of the 38.8 unstake
    tokens, are both paid. *)
Definition w_under_way : world := run w0 (inflight_ops ++ [OMoveUst 1 500 600 (8 * E)]).
Definition two_claims : list (addr * list pay) := [(500, [Pay (TokUst 1) (30 * E)]); (600, [Pay (TokUst 1) (8 * E)])].
Definition way_out : list op :=
  let v := run w_under_way (settle w_under_way [None]) in
  settle w_under_way [None] ++ OEpoch 10 :: collect 100 v ++ [OTx 9 (40 * E) [] Delegate].
Example C105_anywhere_case :
  along orderly w0 (inflight_ops ++ [OMoveUst 1 500 600 (8 * E)])
  /\ c_fees (w_cfg w_under_way) = 400 /\ forallb no_whitelisting_b (unanswered w_under_way) = true
  /\ length (w_calls w_under_way) = 1%nat /\ length (w_res w_under_way) = 1%nat
  /\ forallb ok_b (statuses w_under_way (map (OExec 0) [None])) = true
  /\ unstake_queue (run w_under_way (settle w_under_way [None])) + ONE_EGLD <= 40 * E
  /\ release_epoch 1 w_under_way = Some 15 /\ w_epoch w_under_way = 5
  /\ 30 * E <= ust_of 1 500 w_under_way /\ ust_of 1 600 w_under_way = 8 * E
  /\ forallb ok_b (statuses w_under_way (way_out ++ cash_out two_claims)) = true
  /\ payments (run w_under_way way_out) two_claims = [30 * E; 8 * E].
Proof.
  split; [apply orderly_along; vm_compute; reflexivity|]. repeat split; vm_compute; first [reflexivity|discriminate].
Qed.

(** No deposit is needed, if the operator empties the queue first (C102): then the same
    holds as long as the rest of the queue stays covered by tokens that are not handed
    in, which is less than 2 EGLD unless the providers have no stake left. *)
Theorem C105_without_deposit : forall w0 os m sc,
  Deployed w0 -> along orderly w0 os ->
  let w := run w0 os in
  quiet w -> operator m w -> c_usttok (w_cfg w) = TIssued ->
  c_score (w_cfg w) = Some sc -> distinct_bounds sc -> N.of_nat (length (w_ul w)) < 2 ^ 32 ->
  c_maxsel (w_cfg w) < 2 ^ 64 -> c_maxsel (w_cfg w) mod 2 ^ 32 <> 0 ->
  (forall c p, w_pv w !! c = Some p -> net_zero_or_one p) ->
  exists ops, let v := run w ops in
    Forall (drains m) ops /\ Forall (eq SOk) (statuses w ops)
    /\ (unstake_queue v < 2 * ONE_EGLD \/ no_stake_left v)
    /\ forall e l,
       w_epoch w + e < 2 ^ 64 ->
       Forall (fun x => fst x <> SELF /\ all_due w (w_epoch w + e) (snd x)) l ->
       (forall n u, brought n u l <= ust_of n u w) ->
       claims_total l + unstake_queue v <= ust_of_users w ->
       let first := OEpoch e :: collect m v in
       Forall (eq SOk) (statuses v (first ++ cash_out l))
       /\ payments (run v first) l = map (fun x => pay_total (snd x)) l.
Proof. exact all_leave_without_deposit. Qed.
Print Assumptions C105_without_deposit.

(** Case: the provider has 71 EGLD, the queue holds 70.5 EGLD, and user 500 has passed 20
    of its 70 unstake tokens on to user 600; the owner has the other half. With a deposit of
    72 EGLD all three are paid in full, 600 in two steps; without a deposit all but 1 EGLD
    is paid. *)
Definition pass_on : list op := L_Find2.idle_ops ++ [OMoveUst 1 500 600 (20 * E)].
Definition w_pass : world := run w0 pass_on.
Definition claims (a : N) : list (addr * list pay) :=
  [(600, [Pay (TokUst 1) (5 * E)]); (500, [Pay (TokUst 1) (40 * E); Pay (TokUst 1) a]); (600, [Pay (TokUst 1) (15 * E)]);
   (100, [Pay (TokUst 1) (E / 2)])].
Definition with_deposit : list op := OEpoch 10 :: collect 100 w_pass ++ [OTx 9 (72 * E) [] Delegate].
Definition drain_pass : list op :=
  [OTx 100 0 [] (UnDelegatePending (Some (69 * E + E / 2))); OExec 0 (Some 0); OCb 0].
Definition w_dry : world := run w_pass drain_pass.
Definition no_deposit : list op := OEpoch 10 :: collect 100 w_dry.

Example C105_case :
  Deployed w0 /\ along orderly w0 pass_on /\ quiet w_pass /\ operator 100 w_pass
  /\ c_usttok (w_cfg w_pass) = TIssued /\ unstake_queue w_pass + ONE_EGLD <= 72 * E /\ 0 < ls_worth w_pass (72 * E)
  /\ w_epoch w_pass = 5 /\ release_epoch 1 w_pass = Some 15
  /\ ust_of 1 500 w_pass = 50 * E /\ ust_of 1 600 w_pass = 20 * E /\ ust_of_users w_pass = 70 * E + E / 2
  /\ brought 1 500 (claims (10 * E)) = 50 * E /\ brought 1 600 (claims (10 * E)) = 20 * E
  /\ forallb ok_b (statuses w_pass (with_deposit ++ cash_out (claims (10 * E)))) = true
  /\ payments (run w_pass with_deposit) (claims (10 * E)) = [5 * E; 50 * E; 15 * E; E / 2]
  /\ Forall (drains 100) drain_pass /\ forallb ok_b (statuses w_pass drain_pass) = true /\ unstake_queue w_dry = E
  /\ claims_total (claims (9 * E)) + E = 70 * E + E / 2
  /\ forallb ok_b (statuses w_dry (no_deposit ++ cash_out (claims (9 * E)))) = true
  /\ payments (run w_dry no_deposit) (claims (9 * E)) = [5 * E; 49 * E; 15 * E; E / 2].
Proof.
  split; [exact w0_is_deployed|]. split; [apply orderly_along; vm_compute; reflexivity|].
  split; [split; vm_compute; reflexivity|].
  split; [split; [done|]; split; [left; vm_compute; reflexivity|]; split; vm_compute; reflexivity|].
  split; [vm_compute; reflexivity|]. split; [vm_compute; discriminate|].
  do 10 (split; [vm_compute; reflexivity|]).
  split; [repeat constructor|]. repeat split; vm_compute; reflexivity.
Qed.
