(** P_Track.v — property C113: the storage keeps up with the model. *)
From Verif Require Import L_Typed Scenario.
Open Scope N_scope.

(** C113 In every history from deployment on in which every stored value fits its type and
    the providers' lists see fewer than 2^32 insertions, the bytes in the contract's
    storage say at every point what the state of the model says: every single value,
    record and nonce, missing ones included, and the three lists in their order. From
    each point to the next (and from an empty storage to the first) calls of the storage
    mappers lead, and none of them aborts. *)
Theorem C113_storage : forall w os, Deployed w -> along (fun v _ => fits v) w os -> fits (run w os) ->
  tally insertions w os < 2 ^ 32 ->
  exists ms s, each do_call ms (fun _ => []) = Some s /\ keeps_up s w os.
Proof. exact keeps_up_deployed. Qed.
Print Assumptions C113_storage.
(** two providers, deposits, a batch of delegations, a redemption and an un-delegation *)
Example C113_storage_case :
  let os := setup_ops ++ deposit_ops ++ stake_ops ++ reward_ops ++ redeem_ops ++ unstake_ops in
  Deployed w0 /\ along (fun v _ => fits v) w0 os /\ fits (run w0 os) /\ tally insertions w0 os < 2 ^ 32
  /\ w_dl (run w0 os) <> [] /\ w_un (run w0 os) <> ∅.
Proof.
  intros os. split; [exact w0_is_deployed|].
  assert (along_test w0 os = true) as H by (vm_compute; reflexivity). destruct (along_by_test os w0 H) as [H1 H2].
  split; [exact H1|]. split; [exact H2|]. split; [vm_compute; reflexivity|]. split; vm_compute; discriminate.
Qed.

(** It suffices that the inputs are small: addresses have 32 bytes and the numbers given as
    arguments fewer than 2^32, less than 2^256 EGLD comes in altogether, the managers
    named are fewer than 2^32, the actions fewer than 2^64. *)
Theorem C113_small_inputs : forall w os, Deployed w -> c_acc (w_cfg w) < 2 ^ 256 -> Forall typed os ->
  tally receives w os < 2 ^ 256 -> tally names_managers w os < 2 ^ 32 -> N.of_nat (length os) < 2 ^ 64 ->
  tally insertions w os < 2 ^ 32 ->
  exists ms s, each do_call ms (fun _ => []) = Some s /\ keeps_up s w os.
Proof. exact keeps_up_typed. Qed.
Print Assumptions C113_small_inputs.
Example C113_small_inputs_case :
  let os := setup_ops ++ deposit_ops ++ stake_ops ++ reward_ops ++ redeem_ops ++ unstake_ops in
  Deployed w0 /\ c_acc (w_cfg w0) < 2 ^ 256 /\ Forall typed os
  /\ 0 < tally receives w0 os < 2 ^ 256 /\ tally names_managers w0 os < 2 ^ 32 /\ N.of_nat (length os) < 2 ^ 64
  /\ 0 < tally insertions w0 os < 2 ^ 32.
Proof.
  intros os. split; [exact w0_is_deployed|]. split; [vm_compute; reflexivity|].
  split; [repeat constructor; vm_compute; reflexivity|].
  split; [split; vm_compute; reflexivity|]. split; [vm_compute; reflexivity|].
  split; [vm_compute; reflexivity|]. split; vm_compute; reflexivity.
Qed.
