(** P_Setting.v — C125: which settings make a difference to which action. *)
From Coq Require Import String.
From Verif Require Import Spec20 L_Setting L_Setting2 Scenario Spec14.
Open Scope N_scope.

(** An action that is not in the list of those that look at a setting or write it
    does the same whatever the value: same answer, and the same state but for the
    setting itself. In any state, reachable or not. *)
Theorem C125_no_difference : forall w o t,
  heeds w o t = false ->
  step (tweaked t w) o = (tweaked t (fst (step w o)), snd (step w o)).
Proof. exact tweaked_step. Qed.
Print Assumptions C125_no_difference.

(** a deposit is the same with any fee, 100% included *)
Example C125_no_difference_case :
  let o := OTx 500 (7 * E) [] Delegate in
  heeds w_rewarded o (TwFees 10000) = false /\ snd (step w_rewarded o) = SOk
  /\ c_fees (w_cfg (tweaked (TwFees 10000) w_rewarded)) <> c_fees (w_cfg w_rewarded)
  /\ pend (w_pool (fst (step w_rewarded o))) <> pend (w_pool w_rewarded).
Proof. vm_compute. repeat split; discriminate. Qed.

(** And so for whole histories that ignore the setting. *)
Theorem C125_ignored : forall w os t,
  ignores t w os ->
  run (tweaked t w) os = tweaked t (run w os) /\ statuses (tweaked t w) os = statuses w os.
Proof. exact ignored_history. Qed.
Print Assumptions C125_ignored.

(** the life of a deposit up to its withdrawal ignores the accumulator *)
Definition ignores_b (t : tweak) : world -> list op -> bool :=
  fix f w os := match os with [] => true | o :: r => negb (heeds w o t) && f (fst (step w o)) r end.
Lemma ignores_sound t w os : ignores_b t w os = true -> ignores t w os.
Proof.
  intros H pre o post ->. revert w H. induction pre as [|x pre IH]; intros w H; cbn in *;
    apply andb_true_iff in H as [H1 H2]; [by apply negb_true_iff in H1|by apply IH].
Qed.
Example C125_ignored_case :
  let os := (unbonding_ops ++ ready_ops ++ [OTx 500 0 [Pay (TokUst 1) (2 * E)] Withdraw])%list in
  ignores (TwAcc 7) w0 os /\ Forall (eq SOk) (statuses w0 os).
Proof.
  split; [apply ignores_sound; vm_compute; reflexivity|]. apply all_ok; vm_compute; reflexivity.
Qed.

(** A setter forgets the old value: once it has succeeded the state is the same
    whatever it was. When it fails, it fails the same way. *)
Theorem C125_replaced : forall w t u e ps ep,
  replaces ep t = true ->
  step (tweaked t w) (OTx u e ps ep)
  = (match snd (step w (OTx u e ps ep)) with
     | SOk => fst (step w (OTx u e ps ep))
     | _ => tweaked t (fst (step w (OTx u e ps ep)))
     end, snd (step w (OTx u e ps ep))).
Proof. exact replaced_step. Qed.
Print Assumptions C125_replaced.

Example C125_replaced_case :
  replaces (SetFees 300) (TwFees 9) = true
  /\ snd (step w_staked (OTx 100 0 [] (SetFees 300))) = SOk
  /\ snd (step w_staked (OTx 500 0 [] (SetFees 300))) = SErr EOnlyOwner.
Proof. vm_compute. repeat split. Qed.

(** The number of rounds per epoch and the minimum of rounds are dead: in no
    history does any action answer differently or any other part of the state
    become different because of them. The limit that setMinimumRounds sets limits
    nothing. *)
Theorem C125_rounds_are_dead : forall w os n m,
  (exists m', run (tweaked (TwRpe n) (tweaked (TwMinr m) w)) os
              = tweaked (TwRpe n) (tweaked (TwMinr m') (run w os)))
  /\ statuses (tweaked (TwRpe n) (tweaked (TwMinr m) w)) os = statuses w os.
Proof. exact rounds_dead. Qed.
Print Assumptions C125_rounds_are_dead.

(** the whole life of a deposit, with the minimum set to something else on the way *)
Example C125_rounds_are_dead_case :
  let os := (unbonding_ops ++ [OTx 100 0 [] (SetMinimumRounds 77)] ++ ready_ops)%list in
  Forall (eq SOk) (statuses w0 os) /\ c_minr (w_cfg w0) = 10 /\ c_minr (w_cfg (run w0 os)) = 77
  /\ Forall (eq SOk) (statuses (tweaked (TwRpe 1) (tweaked (TwMinr 18446744073709551615) w0)) os).
Proof.
  split; [apply all_ok; vm_compute; reflexivity|]. split; [reflexivity|]. split; [vm_compute; reflexivity|].
  apply all_ok; vm_compute; reflexivity.
Qed.

(** The list is exact: every endpoint in it is sometimes changed by the setting it
    looks at, in a reachable state in which it would have succeeded. *)
Theorem C125_list_is_exact : forall ep t,
  looks ep t = true ->
  exists w u e ps ep' t', Reachable w /\ name ep' = name ep /\ same_setting t t' = true
    /\ snd (step w (OTx u e ps ep')) = SOk /\ matters w (OTx u e ps ep') t'.
Proof. exact each_look_matters. Qed.
Print Assumptions C125_list_is_exact.

(** the fees do matter to the answer to claimRewards, and the real stakes to the
    providers' answers *)
Example C125_list_is_exact_case :
  looks UnDelegate (TwUnbond 0) = true
  /\ (let w := run w_staked [OTx 100 0 [] ClaimRewards; OExec 0 (Some (2 * E))] in
      heeds w (OCb 0) (TwFees 10001) = true /\ matters w (OCb 0) (TwFees 10001))
  /\ (let w := fst (step w_redeemed (OTx 100 0 [] (UnDelegatePending None))) in
      heeds w (OExec 0 (Some 0)) (TwLive ∅) = true /\ matters w (OExec 0 (Some 0)) (TwLive ∅)).
Proof.
  split; [reflexivity|]. split; (split; [vm_compute; reflexivity|]); apply matters_b; vm_compute; reflexivity.
Qed.

(** The contract is blind to what the providers really hold for it: no
    transaction, callback or transfer answers differently or changes another part
    of the state if the real stakes are different. *)
Theorem C125_blind_to_stakes : forall w o m,
  (forall i out, o <> OExec i out) -> (forall c x y, o <> OProvider c x y) ->
  step (set_live m w) o = (set_live m (fst (step w o)), snd (step w o)).
Proof. exact blind. Qed.
Print Assumptions C125_blind_to_stakes.

(** nobody has anything left at the providers: the user still redeems 40 LS tokens at
    the old price *)
Example C125_blind_to_stakes_case :
  let o := OTx 500 0 [Pay TokLs (40 * E)] UnDelegate in
  snd (step w_rewarded o) = SOk /\ snd (step (set_live ∅ w_rewarded) o) = SOk
  /\ w_live w_rewarded <> ∅.
Proof.
  split; [vm_compute; reflexivity|]. split; [vm_compute; reflexivity|].
  intros H. apply (f_equal (fun m => m !! 1000)) in H. vm_compute in H. discriminate H.
Qed.
