(** P_Order.v — properties C29 and C30: histories in which the replies of each
    provider are delivered in the order of execution. *)
From Verif Require Import Scenario L_Order.

(** C29 callbacks do not abort in order. [orderly] (Spec.v) constrains only the
    deliveries of replies: oldest of its provider first, LS token issued and a
    deposit worth one LS unit for whitelistings, fee at most 100% for rewards. *)
Theorem C29_no_callback_aborts : forall w os,
  Deployed w -> along orderly w os -> clean_history w os.
Proof. exact ordered_clean. Qed.
Print Assumptions C29_no_callback_aborts.

(** Case: the whole life of a deposit, with replies of different providers
    delivered out of order, and a history that is not orderly. *)
Example C29_case :
  Deployed w0
  /\ along orderly w0 (unbonding_ops ++ ready_ops)
  /\ along orderly w_redeemed
       [OTx 100 0 [] (UnDelegatePending None); OExec 1 (Some 0); OExec 0 (Some 0); OCb 1; OCb 0]
  /\ along_b orderly_b w_redeemed
       [OTx 100 0 [] (UnDelegatePending (Some (20 * E))); OTx 100 0 [] (UnDelegatePending None);
        OExec 0 (Some 0); OExec 0 (Some 0); OExec 0 (Some 0); OExec 0 (Some 0); OCb 3] = false.
Proof.
  split; [exact w0_is_deployed|]. split; [apply orderly_along; vm_compute; reflexivity|].
  split; [apply orderly_along; vm_compute; reflexivity|vm_compute; reflexivity].
Qed.

(** C30 recorded stake equals real stake, up to the replies that have not been
    delivered. [live_of] is what the provider holds for the contract: active
    stake and unbonding stake. *)
Theorem C30_books_follow : forall w os,
  Deployed w -> along orderly w os ->
  let v := run w os in forall c,
  fst (live_of v c) + undelivered undelegated v c = fst (recorded v c) + undelivered added v c
  /\ snd (live_of v c) + undelivered handed_back v c = snd (recorded v c) + undelivered undelegated v c.
Proof. exact ordered_books. Qed.
Print Assumptions C30_books_follow.

Theorem C30_books_equal : forall w os,
  Deployed w -> along orderly w os ->
  let v := run w os in forall c,
  (forall x, In x (w_res v) -> provider_of (fst x) <> Some c) -> recorded v c = live_of v c.
Proof. exact ordered_books_settled. Qed.
Print Assumptions C30_books_equal.

(** Case: one un-delegation executed and not answered; and everything answered. *)
Example C30_case :
  Deployed w0 /\ along orderly w0 inflight_ops /\ along orderly w0 unbonding_ops
  /\ undelivered undelegated (run w0 inflight_ops) 1001 = 13794723465119715928
  /\ recorded (run w0 inflight_ops) 1001 = (76961782288649127693, 0)
  /\ live_of (run w0 inflight_ops) 1001 = (63167058823529411765, 13794723465119715928)
  /\ recorded (run w0 unbonding_ops) 1001 = (63167058823529411765, 13794723465119715928)
  /\ live_of (run w0 unbonding_ops) 1001 = (63167058823529411765, 13794723465119715928).
Proof.
  split; [exact w0_is_deployed|]. split; [apply orderly_along; vm_compute; reflexivity|].
  split; [apply orderly_along; vm_compute; reflexivity|]. vm_compute. repeat split.
Qed.
