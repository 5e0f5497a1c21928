(** P_Comm.v — property C92: the order in which providers answer does not matter. *)
From Verif Require Import Scenario L_Comm.

(** C92 two waiting replies of different providers, or of which one delivers rewards,
    may arrive in either order: each is booked or refused alike in both, and the state
    reached is the same (only the log, which records the last action alone, differs). *)
Theorem C92_any_order : forall w i j x y,
  Reachable w -> (i < j)%nat -> nth_error (w_res w) i = Some x -> nth_error (w_res w) j = Some y ->
  provider_reply x -> provider_reply y -> (about x = None \/ about x <> about y) ->
  (snd (step (fst (step w (OCb i))) (OCb (j - 1))) = SOk <-> snd (step w (OCb j)) = SOk)
  /\ (snd (step (fst (step w (OCb j))) (OCb i)) = SOk <-> snd (step w (OCb i)) = SOk)
  /\ set_log [] (run w [OCb i; OCb (j - 1)]) = set_log [] (run w [OCb j; OCb i]).
Proof. exact independent. Qed.
Print Assumptions C92_any_order.

(** Two replies of the same provider lead to the same state whenever both orders book
    both of them. (They need not: a withdrawal may return more than is recorded as
    unbonding until an un-delegation is booked.) *)
Theorem C92_same_provider : forall w i j x y,
  (i < j)%nat -> nth_error (w_res w) i = Some x -> nth_error (w_res w) j = Some y ->
  provider_reply x -> provider_reply y ->
  Forall (eq SOk) (statuses w [OCb i; OCb (j - 1)]) -> Forall (eq SOk) (statuses w [OCb j; OCb i]) ->
  set_log [] (run w [OCb i; OCb (j - 1)]) = set_log [] (run w [OCb j; OCb i]).
Proof. exact commute. Qed.
Print Assumptions C92_same_provider.

(** Cases: ten epochs later 1000 returns its 25 EGLD; 1001, which was topped up, returns
    30 EGLD, which is more than recorded and refused in any order; and 2 EGLD of rewards
    arrive. Then two replies of 1001: the return of its 13.8 EGLD and a failed delegation. *)
Definition three_replies : world :=
  run w_unbonding
    [OEpoch 10; OProvider 1001 0 (30 * E); OTx 100 0 [] (WithdrawPending 1000); OTx 100 0 [] (WithdrawPending 1001);
     OTx 100 0 [] ClaimRewards;
     OExec 0 (Some 25038217711350872307); OExec 0 (Some (30 * E)); OExec 0 (Some (2 * E))].
Definition two_replies : world :=
  run w_unbonding
    [OEpoch 10; OTx 600 (3 * E) [] Delegate; OTx 100 0 [] (WithdrawPending 1001); OTx 100 0 [] (DelegatePending None);
     OExec 0 (Some 13794723465119715928); OExec 0 None].
Example C92_case :
  Reachable three_replies
  /\ nth_error (w_res three_replies) 0 = Some (KWithd 1000, RDone 25038217711350872307)
  /\ nth_error (w_res three_replies) 1 = Some (KWithd 1001, RDone (30 * E))
  /\ (exists l, nth_error (w_res three_replies) 2 = Some (KClaim l, RDone (2 * E)))
  /\ map ok_b (statuses three_replies [OCb 0; OCb 0; OCb 0]) = [true; false; true]
  /\ map ok_b (statuses three_replies [OCb 2; OCb 1; OCb 0]) = [true; false; true]
  /\ w_pool (run three_replies [OCb 0; OCb 0; OCb 0]) = w_pool (run three_replies [OCb 2; OCb 1; OCb 0])
  /\ about (KWithd 1000, RDone 25038217711350872307) <> about (KWithd 1001, RDone (30 * E)).
Proof.
  split; [apply reach_run, w_unbonding_reach|]. split; [vm_compute; reflexivity|]. split; [vm_compute; reflexivity|].
  split; [eexists; vm_compute; reflexivity|]. vm_compute. repeat split. discriminate.
Qed.

Example C92_same_case :
  map fst (w_res two_replies) = [KWithd 1001; KDeleg 1001 (3 * E)]
  /\ forallb ok_b (statuses two_replies [OCb 0; OCb (1 - 1)]) = true
  /\ forallb ok_b (statuses two_replies [OCb 1; OCb 0]) = true
  /\ w_pool (run two_replies [OCb 0; OCb 0]) <> w_pool two_replies.
Proof. vm_compute. repeat split. discriminate. Qed.
