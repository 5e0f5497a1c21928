(** P_Accept.v — properties C88 and C89: exactly which transactions are accepted and
    exactly which replies are booked. [acceptable] and [bookable] (Spec4.v) list the
    conditions of every endpoint and of every callback on the public state. *)
From Verif Require Import Scenario L_Reply.

(** C88 A transaction is accepted exactly when it is acceptable. *)
Theorem C88_accepted : forall w u eg pays ep,
  Reachable w ->
  (match ep with
   | DelegatePending _ => N.of_nat (length (w_dl w)) < 2 ^ 32
   | UnDelegatePending _ => N.of_nat (length (w_ul w)) < 2 ^ 32
   | _ => True
   end) ->
  snd (step w (OTx u eg pays ep)) = SOk <-> acceptable w u eg pays ep.
Proof. exact accepted_iff. Qed.
Print Assumptions C88_accepted.

(** Cases: 0.3 EGLD are accepted while 100 wait to be delegated, and rejected when
    nothing waits; 1 EGLD always is. Redemptions likewise. *)
Example C88_case :
  Reachable w_deposit /\ Reachable w_staked /\ pending_egld w_deposit = 100 * E /\ pending_egld w_staked = 0
  /\ acceptable w_deposit 502 (3 * E / 10) [] Delegate
  /\ snd (step w_deposit (OTx 502 (3 * E / 10) [] Delegate)) = SOk
  /\ ~ acceptable w_staked 502 (3 * E / 10) [] Delegate
  /\ snd (step w_staked (OTx 502 (3 * E / 10) [] Delegate)) <> SOk
  /\ acceptable w_staked 502 E [] Delegate
  /\ acceptable w_staked 500 0 [Pay TokLs (2 * E)] UnDelegate
  /\ ~ acceptable w_staked 500 0 [Pay TokLs (E / 2)] UnDelegate
  /\ snd (step w_staked (OTx 500 0 [Pay TokLs (E / 2)] UnDelegate)) <> SOk.
Proof.
  split; [exact w_deposit_reach|]. split; [exact w_staked_reach|].
  split; [vm_compute; reflexivity|]. split; [vm_compute; reflexivity|].
  assert (K : forall w u eg pays ep, Reachable w ->
    (match ep with Delegate | UnDelegate => True | _ => False end) ->
    snd (step w (OTx u eg pays ep)) = SOk <-> acceptable w u eg pays ep).
  { intros w u eg pays ep Hr H. apply C88_accepted; [exact Hr|]. destruct ep; done. }
  rewrite <- !K by (exact w_deposit_reach || exact w_staked_reach || exact I).
  vm_compute. repeat split; discriminate.
Qed.

(** C89 A waiting reply is booked exactly when it is bookable: the only replies that
    can be refused are an un-delegation of more than is recorded, a withdrawal of more
    than is recorded, rewards with a fee above 100%, and the reply to a whitelisting
    before the LS token exists or when the deposit is worth no LS unit. A refused reply
    is gone all the same and leaves its EGLD in the contract. *)
Theorem C89_booked : forall w i k r,
  Reachable w -> nth_error (w_res w) i = Some (k, r) ->
  snd (step w (OCb i)) = SOk <-> bookable w k r.
Proof. exact reply_iff. Qed.
Print Assumptions C89_booked.

Theorem C89_refused : forall w i k r,
  Reachable w -> nth_error (w_res w) i = Some (k, r) -> ~ bookable w k r ->
  exists e, snd (step w (OCb i)) = SCbFail e
    /\ fst (step w (OCb i)) = set_egld (w_egld w + attached k r) (set_res (drop_nth i (w_res w)) (set_log [] w)).
Proof. exact reply_status. Qed.
Print Assumptions C89_refused.

(** Cases: a provider returns what is recorded, and one that was topped up returns
    more, which is refused. *)
Definition back_ops (top : N) (v : N) : list op :=
  [OEpoch 10; OProvider 1000 0 top; OTx 100 0 [] (WithdrawPending 1000); OExec 0 (Some v)].
Definition w_back : world := run w_unbonding (back_ops (30 * E) (25 * E)).
Definition w_back_more : world := run w_unbonding (back_ops (30 * E) (30 * E)).
Example C89_case :
  Reachable w_back /\ nth_error (w_res w_back) 0 = Some (KWithd 1000, RDone (25 * E)) /\ bookable w_back (KWithd 1000) (RDone (25 * E))
  /\ snd (step w_back (OCb 0)) = SOk
  /\ Reachable w_back_more /\ nth_error (w_res w_back_more) 0 = Some (KWithd 1000, RDone (30 * E))
  /\ ~ bookable w_back_more (KWithd 1000) (RDone (30 * E))
  /\ snd (step w_back_more (OCb 0)) <> SOk.
Proof.
  split; [apply reach_run, w_unbonding_reach|]. split; [vm_compute; reflexivity|]. split; [vm_compute; discriminate|].
  split; [vm_compute; reflexivity|]. split; [apply reach_run, w_unbonding_reach|]. split; [vm_compute; reflexivity|].
  split; [intros H; vm_compute in H; apply H; reflexivity|]. vm_compute. discriminate.
Qed.
