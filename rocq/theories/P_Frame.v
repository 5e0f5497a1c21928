(** P_Frame.v — property C101: an action changes nothing but the parts it is for. *)
From Verif Require Import Scenario L_Settle.

(** C101 nothing else changes: [may_change] (Spec9.v) lists, for every action, the
    parts of the state it is for; every other part is afterwards what it was. It holds
    in every state, reachable or not, and whether the action succeeds or not. *)
Theorem C101_nothing_else : forall w o p,
  may_change w o p = false -> same p w (fst (step w o)).
Proof. exact frame_step. Qed.
Print Assumptions C101_nothing_else.

(** So a part that no action of a history is for is the same at its end. *)
Theorem C101_history : forall p w os,
  along (fun w o => may_change w o p = false) w os -> same p w (run w os).
Proof. exact frame_along. Qed.
Print Assumptions C101_history.

(** Case: the table is no longer than it needs to be. Each line is an action in a
    reachable state that really changes all the parts named. *)
Definition does (w : world) (os : list op) (o : op) (ps : list part) : bool :=
  let v := run w os in
  forallb (fun p => may_change v o p && negb (bool_decide (same p v (fst (step v o))))) ps.
Definition keeps (w : world) (os : list op) (o : op) (ps : list part) : bool :=
  let v := run w os in
  forallb (fun p => negb (may_change v o p) && bool_decide (same p v (fst (step v o)))) ps.

Definition whole (c : addr) : list part := [RAdmin c; RParams c; REligible c; RStaked c; RUnbonding c; RStaking c; RUnstaking c].
Definition white : op := OTx 100 E [] (Whitelist 1002 79 0 0 10 800).
Definition asked : list op := [OTx 100 0 [] (UnDelegatePending None)].
Definition asked_more : list op := [OTx 100 0 [] (DelegatePending None)].

Example C101_case :
  Reachable w_redeemed /\ Reachable w_ready
  (* users *)
  /\ does w_redeemed [] (OTx 501 (10 * E) [] Delegate) [Supply; Reserve; Pot; UnstakeQueue; Balance; LsOf 501] = true
  /\ does w_setup [] (OTx 501 (10 * E) [] Delegate) [StakeQueue] = true
  /\ does w_deposit [] (OTx 500 0 [Pay TokLs (40 * E)] UnDelegate) [Supply; Reserve; StakeQueue; Balance; LsOf 500] = true
  /\ does w_rewarded [] (OTx 500 0 [Pay TokLs (40 * E)] UnDelegate) [UnstakeQueue; TokenBook; UstOf 1 500] = true
  /\ does w_ready [] (OTx 500 0 [Pay (TokUst 1) (38 * E)] Withdraw) [Pot; Balance; UstOf 1 500] = true
  (* batches *)
  /\ does w_deposit [] (OTx 100 0 [] (DelegatePending None)) [StakeQueue; Balance; Calls; RStaking 1000] = true
  /\ does w_redeemed [] (OTx 100 0 [] (UnDelegatePending None)) [UnstakeQueue; Calls; RUnstaking 1000] = true
  /\ does w_ready [] (OTx 100 0 [] (WithdrawPending 1000)) [Calls] = true
  /\ does w_rewarded [] (OTx 500 0 [] (ClaimFees true)) [Fees; Balance] = true
  /\ does w_rewarded [] white (Calls :: whole 1002) = true
  /\ does w_rewarded [] (OTx 100 5 [] AddRewards) [Reserve; StakeQueue; Balance] = true
  (* replies *)
  /\ does w_deposit (asked_more ++ [OExec 0 (Some 0)]) (OCb 0) [Replies; RStaked 1000; RStaking 1000] = true
  /\ does w_deposit (asked_more ++ [OExec 0 None]) (OCb 0) [Replies; StakeQueue; Balance; REligible 1000; RStaking 1000] = true
  /\ does w_redeemed (asked ++ [OExec 0 (Some 0)]) (OCb 0) [Replies; Unbonding; RStaked 1000; RUnbonding 1000; RUnstaking 1000] = true
  /\ does w_redeemed (asked ++ [OExec 0 None]) (OCb 0) [Replies; UnstakeQueue; RUnstaking 1000] = true
  /\ does w_staked [OTx 100 0 [] ClaimRewards; OExec 0 (Some (2 * E))] (OCb 0) [Replies; Reserve; Fees; StakeQueue; Balance] = true
  /\ does w_rewarded [white; OExec 0 (Some 0)] (OCb 0) [Supply; Reserve; StakeList; UnstakeList; RStaked 1002; LsOf 100] = true
  /\ does w_rewarded [white; OExec 0 None] (OCb 0) (whole 1002) = true
  /\ does w_unbonding [OEpoch 10; OTx 100 0 [] (WithdrawPending 1000); OExec 0 (Some (25 * E))] (OCb 0)
       [Replies; Pot; Unbonding; Balance; RUnbonding 1000] = true
  /\ does w0 [OTx 100 5 [] RegisterLsToken; OExec 0 (Some 0)] (OCb 0) [Replies; SLsToken] = true
  /\ does w_redeemed asked (OExec 1 (Some 0)) [Calls; Replies; Holding 1001] = true
  (* settings *)
  /\ does w0 [] (OTx 100 5 [] RegisterLsToken) [SLsToken; Calls] = true
  /\ does w_setup [] (OTx 100 0 [] SetStateInactive) [SActive] = true
  /\ does w_setup [] (OTx 100 0 [] (SetFees 500)) [SFees] = true
  /\ does w_setup [] (OTx 100 0 [] (SetMaxSelected 3)) [SMaxSelected] = true
  /\ does w_setup [] (OTx 100 0 [] (SetUnbondPeriod 3)) [SPeriod] = true
  /\ does w_setup [] (OTx 100 0 [] (AddManagers [300])) [SManagers] = true
  /\ does w_setup [] (OTx 78 0 [] (ChangeParams 1001 (4 * E) (600 * E) 1 1 false)) [RParams 1001; REligible 1001] = true
  (* and they keep what is not listed, for instance *)
  /\ keeps w_redeemed [] (OTx 501 (10 * E) [] Delegate) [LsOf 500; UstOf 1 500; RStaked 1000; Fees; SFees; StakeList] = true
  /\ keeps w_redeemed (asked ++ [OExec 0 None]) (OCb 0) [RStaked 1000; RUnstaking 1001; Balance; StakeQueue] = true.
Proof.
  split; [exact w_redeemed_reach|]. split; [exact w_ready_reach|]. repeat split.
  all: vm_compute; reflexivity.
Qed.
