(** Conformance.v — the repository's integration tests (liquid-staking/tests)
    replayed on the model: same calls, same expected balances, storage values
    and error codes. These are tests of the model's fidelity, not properties of
    the contract. The tests full_un_delegate_test, test_scoring_config_distribution,
    full_small_first_amount_un_delegate_test and full_over_2_first_amount_un_delegate_test
    draw node counts and APYs at random; here they are drawn once, by the script
    that translated the tests. Five tests that are commented out in the
    repository are left out. set_block_round calls and prints have no effect
    and are left out. *)
From Verif Require Import TestKit.

(** liquid-staking/tests/delegate_test.rs:17 *)
Definition liquid_staking_add_liquidity_test : list tcmd :=
  [TDeploy (1000 * TE18) (1000 * TE18) (1500 * TE18) 0 0;
   TUser 500 (100 * TE18);
   TAdd 500 (100 * TE18);
   CStorage (101 * TE18) (101 * TE18) (0 * TE18) (0 * TE18) (100 * TE18) (0 * TE18);
   CLs 500 (100 * TE18)].
Example liquid_staking_add_liquidity_test_passes : passes liquid_staking_add_liquidity_test = true.
Proof. vm_compute. reflexivity. Qed.

(** liquid-staking/tests/delegate_test.rs:43 *)
Definition liquid_staking_add_liquidity_pending_redemption_partial_test : list tcmd :=
  [TDeploy (1000 * TE18) (1000 * TE18) (1500 * TE18) 0 0;
   TUser 500 (100 * TE18);
   TUser 501 (100 * TE18);
   TAdd 500 (100 * TE18);
   TEpoch 50;
   CStorage (101 * TE18) (101 * TE18) (0 * TE18) (0 * TE18) (100 * TE18) (0 * TE18);
   TDel (Some (1 * TE18));
   TDel None;
   CStorage (101 * TE18) (101 * TE18) (0 * TE18) (0 * TE18) (0 * TE18) (0 * TE18);
   TRem 500 (90 * TE18);
   CStorage (11 * TE18) (11 * TE18) (0 * TE18) (0 * TE18) (0 * TE18) (90 * TE18);
   CLs 500 (10 * TE18);
   CUst 500 1 (90 * TE18) (Some (50, 60));
   CEgld 500 (0 * TE18);
   TAdd 501 (100 * TE18);
   CStorage (111 * TE18) (111 * TE18) (0 * TE18) (90 * TE18) (10 * TE18) (0 * TE18)].
Example liquid_staking_add_liquidity_pending_redemption_partial_test_passes : passes liquid_staking_add_liquidity_pending_redemption_partial_test = true.
Proof. vm_compute. reflexivity. Qed.

(** liquid-staking/tests/delegate_test.rs:144 *)
Definition liquid_staking_add_liquidity_pending_redemption_full_test : list tcmd :=
  [TDeploy (1000 * TE18) (1000 * TE18) (1500 * TE18) 0 0;
   TUser 500 (100 * TE18);
   TUser 501 (100 * TE18);
   TAdd 500 (100 * TE18);
   TEpoch 50;
   CStorage (101 * TE18) (101 * TE18) (0 * TE18) (0 * TE18) (100 * TE18) (0 * TE18);
   TDel None;
   CStorage (101 * TE18) (101 * TE18) (0 * TE18) (0 * TE18) (0 * TE18) (0 * TE18);
   TRem 500 (90 * TE18);
   CStorage (11 * TE18) (11 * TE18) (0 * TE18) (0 * TE18) (0 * TE18) (90 * TE18);
   CLs 500 (10 * TE18);
   CUst 500 1 (90 * TE18) (Some (50, 60));
   CEgld 500 (0 * TE18);
   TAdd 501 (90 * TE18);
   CStorage (101 * TE18) (101 * TE18) (0 * TE18) (90 * TE18) (0 * TE18) (0 * TE18)].
Example liquid_staking_add_liquidity_pending_redemption_full_test_passes : passes liquid_staking_add_liquidity_pending_redemption_full_test = true.
Proof. vm_compute. reflexivity. Qed.

(** liquid-staking/tests/delegate_test.rs:240 *)
Definition liquid_staking_add_liquidity_exp17_test : list tcmd :=
  [TDeploy (1000 * TE18) (1000 * TE18) (1500 * TE18) 0 0;
   TUser 500 (10 * TE18);
   TUser 501 (1 * TE18);
   TAdd 500 (1 * TE18);
   TAdd 501 (5 * TE17);
   CPend (15 * TE17);
   CLs 500 (1 * TE18);
   CLs 501 (5 * TE17)].
Example liquid_staking_add_liquidity_exp17_test_passes : passes liquid_staking_add_liquidity_exp17_test = true.
Proof. vm_compute. reflexivity. Qed.

(** liquid-staking/tests/delegate_test.rs:272 *)
Definition liquid_staking_add_liquidity_exp17_error_test : list tcmd :=
  [TDeploy (1000 * TE18) (1000 * TE18) (1500 * TE18) 0 0;
   TUser 500 (10 * TE18);
   TUser 501 (1 * TE18);
   TAdd 500 (3 * TE18);
   TDel None;
   TRem 500 (15 * TE17);
   TAddErr 501 (6 * TE17) EInsufficientPendingEgld].
Example liquid_staking_add_liquidity_exp17_error_test_passes : passes liquid_staking_add_liquidity_exp17_error_test = true.
Proof. vm_compute. reflexivity. Qed.

(** liquid-staking/tests/delegate_test.rs:294 *)
Definition liquid_staking_add_liquidity_inactive_contract_error_test : list tcmd :=
  [TDeploy (1000 * TE18) (1000 * TE18) (1500 * TE18) 0 0;
   TUser 500 (100 * TE18);
   TInactive;
   TAddErr 500 (100 * TE18) ENotActive].
Example liquid_staking_add_liquidity_inactive_contract_error_test_passes : passes liquid_staking_add_liquidity_inactive_contract_error_test = true.
Proof. vm_compute. reflexivity. Qed.

(** liquid-staking/tests/delegate_test.rs:308 *)
Definition liquid_staking_delegate_custom_amount_pending_error_test : list tcmd :=
  [TDeploy (1000 * TE18) (1000 * TE18) (1500 * TE18) 0 0;
   TUser 500 (10 * TE18);
   TAdd 500 (3 * TE18);
   TDelErr (Some (40 * TE17)) EInsufficientPendingEgld].
Example liquid_staking_delegate_custom_amount_pending_error_test_passes : passes liquid_staking_delegate_custom_amount_pending_error_test = true.
Proof. vm_compute. reflexivity. Qed.

(** liquid-staking/tests/delegate_test.rs:326 *)
Definition liquid_staking_delegate_custom_amount_under_min_pending_error_test : list tcmd :=
  [TDeploy (1000 * TE18) (1000 * TE18) (1500 * TE18) 0 0;
   TUser 500 (10 * TE18);
   TAdd 500 (3 * TE18);
   TDelErr (Some (5 * TE17)) EInsufficientPendingEgld].
Example liquid_staking_delegate_custom_amount_under_min_pending_error_test_passes : passes liquid_staking_delegate_custom_amount_under_min_pending_error_test = true.
Proof. vm_compute. reflexivity. Qed.

(** liquid-staking/tests/delegate_test.rs:344 *)
Definition liquid_staking_delegate_custom_amount_left_over_pending_error_test : list tcmd :=
  [TDeploy (1000 * TE18) (1000 * TE18) (1500 * TE18) 0 0;
   TUser 500 (10 * TE18);
   TAdd 500 (3 * TE18);
   TDelErr (Some (25 * TE17)) EInsufficientPendingEgld].
Example liquid_staking_delegate_custom_amount_left_over_pending_error_test_passes : passes liquid_staking_delegate_custom_amount_left_over_pending_error_test = true.
Proof. vm_compute. reflexivity. Qed.

(** liquid-staking/tests/delegate_test.rs:362 *)
Definition liquid_staking_delegate_custom_amount_full_pending_test : list tcmd :=
  [TDeploy (1000 * TE18) (1000 * TE18) (1500 * TE18) 0 0;
   TUser 500 (10 * TE18);
   TAdd 500 (3 * TE18);
   TDel (Some (3 * TE18))].
Example liquid_staking_delegate_custom_amount_full_pending_test_passes : passes liquid_staking_delegate_custom_amount_full_pending_test = true.
Proof. vm_compute. reflexivity. Qed.

(** liquid-staking/tests/delegate_test.rs:390 *)
Definition liquid_staking_add_liquidity_not_enough_pending_egld_error_test : list tcmd :=
  [TDeploy (1000 * TE18) (1000 * TE18) (1500 * TE18) 0 0;
   TUser 500 (10 * TE18);
   TAddErr 500 (1 * TE17) EInsufficientPendingEgld].
Example liquid_staking_add_liquidity_not_enough_pending_egld_error_test_passes : passes liquid_staking_add_liquidity_not_enough_pending_egld_error_test = true.
Proof. vm_compute. reflexivity. Qed.

(** liquid-staking/tests/delegate_test.rs:403 *)
Definition liquid_staking_add_liquidity_partial_pending_redemption_test : list tcmd :=
  [TDeploy (1000 * TE18) (1000 * TE18) (1500 * TE18) 0 0;
   TUser 500 (10 * TE18);
   TAdd 500 (5 * TE18);
   CStorage (6 * TE18) (6 * TE18) (0 * TE18) (0 * TE18) (5 * TE18) (0 * TE18);
   TDel None;
   CStorage (6 * TE18) (6 * TE18) (0 * TE18) (0 * TE18) (0 * TE18) (0 * TE18);
   TRem 500 (2 * TE18);
   CStorage (4 * TE18) (4 * TE18) (0 * TE18) (0 * TE18) (0 * TE18) (2 * TE18);
   CLs 500 (3 * TE18);
   TAdd 500 (15 * TE17);
   CPend (10 * TE17);
   CWdrawn (5 * TE17);
   CLs 500 (45 * TE17)].
Example liquid_staking_add_liquidity_partial_pending_redemption_test_passes : passes liquid_staking_add_liquidity_partial_pending_redemption_test = true.
Proof. vm_compute. reflexivity. Qed.

(** liquid-staking/tests/delegate_test.rs:440 *)
Definition liquid_staking_add_liquidity_fallback_test : list tcmd :=
  [TDeploy (1000 * TE18) (1000 * TE18) (1500 * TE18) 0 0;
   TUser 500 (10 * TE18);
   TAdd 500 (5 * TE18);
   TDel None;
   CStorage (6 * TE18) (6 * TE18) (0 * TE18) (0 * TE18) (0 * TE18) (0 * TE18);
   TRem 500 (1 * TE18);
   TAdd 500 (15 * TE17);
   CPend (15 * TE17)].
Example liquid_staking_add_liquidity_fallback_test_passes : passes liquid_staking_add_liquidity_fallback_test = true.
Proof. vm_compute. reflexivity. Qed.

(** liquid-staking/tests/test.rs:13 *)
Definition init_test : list tcmd :=
  [].
Example init_test_passes : passes init_test = true.
Proof. vm_compute. reflexivity. Qed.

(** liquid-staking/tests/test.rs:75 *)
Definition liquid_staking_multiple_operations : list tcmd :=
  [TDeploy (1000 * TE18) (1000 * TE18) (1100 * TE18) 15 7000;
   TDeploy (1000 * TE18) (1000 * TE18) (1100 * TE18) 30 6300;
   TDeploy (1000 * TE18) (1000 * TE18) (1100 * TE18) 50 6600;
   TDeploy (1000 * TE18) (1000 * TE18) (0 * TE18) 3 11000;
   TDeploy (1000 * TE18) (1000 * TE18) (0 * TE18) 3 11000;
   TParams 4 (1000 * TE18) (1000 * TE18) 3 11000 false;
   TUser 500 (1000 * TE18);
   TUser 501 (1000 * TE18);
   TUser 502 (1000 * TE18);
   TAdd 500 (100 * TE18);
   TDel None;
   TAdd 500 (200 * TE18);
   TDel None;
   TAdd 501 (500 * TE18);
   TDel None;
   TParams 1 (1080 * TE18) (0 * TE18) 6 13000 true;
   TAdd 502 (600 * TE18);
   TDel None;
   TParams 1 (1080 * TE18) (0 * TE18) 3 8000 true;
   TParams 2 (1030 * TE18) (1100 * TE18) 3 9000 true;
   CLs 500 (300 * TE18);
   CLs 501 (500 * TE18);
   CLs 502 (600 * TE18);
   TEpoch 10;
   TClaim;
   CSelf 3849315068493150683].
Example liquid_staking_multiple_operations_passes : passes liquid_staking_multiple_operations = true.
Proof. vm_compute. reflexivity. Qed.

(** liquid-staking/tests/test.rs:222 *)
Definition liquid_staking_multiple_withdraw_test : list tcmd :=
  [TDeploy (1000 * TE18) (1000 * TE18) (1500 * TE18) 0 0;
   TUser 500 (100 * TE18);
   TUser 501 (100 * TE18);
   TUser 502 (100 * TE18);
   TAdd 500 (50 * TE18);
   TAdd 501 (40 * TE18);
   TAdd 502 (40 * TE18);
   CStorage (131 * TE18) (131 * TE18) (0 * TE18) (0 * TE18) (130 * TE18) (0 * TE18);
   TDel None;
   TEpoch 50;
   TRem 500 (20 * TE18);
   CUst 500 1 (20 * TE18) None;
   TRem 500 (20 * TE18);
   CUst 500 1 (40 * TE18) None;
   TRem 501 (20 * TE18);
   TRem 502 (20 * TE18);
   CStorage (51 * TE18) (51 * TE18) (0 * TE18) (0 * TE18) (0 * TE18) (80 * TE18);
   TUnd None;
   TEpoch 60;
   TWdp 0;
   CStorage (51 * TE18) (51 * TE18) (0 * TE18) (80 * TE18) (0 * TE18) (0 * TE18);
   TWd 500 1 (20 * TE18);
   CLs 500 (10 * TE18);
   CEgld 500 (70 * TE18);
   CLs 501 (20 * TE18);
   CEgld 501 (60 * TE18);
   CLs 502 (20 * TE18);
   CEgld 502 (60 * TE18);
   CStorage (51 * TE18) (51 * TE18) (0 * TE18) (60 * TE18) (0 * TE18) (0 * TE18)].
Example liquid_staking_multiple_withdraw_test_passes : passes liquid_staking_multiple_withdraw_test = true.
Proof. vm_compute. reflexivity. Qed.

(** liquid-staking/tests/test.rs:426 *)
Definition claim_rewards_multiple_times_test : list tcmd :=
  [TDeploy (1000 * TE18) (1000 * TE18) (1500 * TE18) 0 0;
   TUser 500 (100 * TE18);
   TAdd 500 (100 * TE18);
   TDel None;
   TEpoch 50;
   TClaim;
   TEpoch 100;
   TClaim].
Example claim_rewards_multiple_times_test_passes : passes claim_rewards_multiple_times_test = true.
Proof. vm_compute. reflexivity. Qed.

(** liquid-staking/tests/test.rs:453 *)
Definition add_liquidity_no_valid_delegation_contract_error_test : list tcmd :=
  [TUser 500 (100 * TE18);
   TAdd 500 (100 * TE18);
   TDelErr None ENoDelegationContracts].
Example add_liquidity_no_valid_delegation_contract_error_test_passes : passes add_liquidity_no_valid_delegation_contract_error_test = true.
Proof. vm_compute. reflexivity. Qed.

(** liquid-staking/tests/unDelegate_test.rs:20 *)
Definition undelegate_can_fully_instant_redeem : list tcmd :=
  [TDeploy (1000 * TE18) (1000 * TE18) (1500 * TE18) 0 0;
   TUser 500 (100 * TE18);
   TAdd 500 (100 * TE18);
   CStorage (101 * TE18) (101 * TE18) (0 * TE18) (0 * TE18) (100 * TE18) (0 * TE18);
   TRem 500 (90 * TE18);
   CStorage (11 * TE18) (11 * TE18) (0 * TE18) (0 * TE18) (10 * TE18) (0 * TE18);
   CLs 500 (10 * TE18);
   CEgld 500 (90 * TE18)].
Example undelegate_can_fully_instant_redeem_passes : passes undelegate_can_fully_instant_redeem = true.
Proof. vm_compute. reflexivity. Qed.

(** liquid-staking/tests/unDelegate_test.rs:53 *)
Definition undelegate_partially_instant_test : list tcmd :=
  [TDeploy (1000 * TE18) (1000 * TE18) (1500 * TE18) 0 0;
   TUser 500 (100 * TE18);
   TUser 501 (200 * TE18);
   TAdd 500 (100 * TE18);
   TEpoch 50;
   CStorage (101 * TE18) (101 * TE18) (0 * TE18) (0 * TE18) (100 * TE18) (0 * TE18);
   TDel None;
   TAdd 501 (905 * TE17);
   TRem 500 (90 * TE18);
   CPend (15 * TE17);
   CQueue (1 * TE18);
   CLs 500 (10 * TE18);
   CUst 500 1 (1 * TE18) (Some (50, 60));
   CEgld 500 (89 * TE18)].
Example undelegate_partially_instant_test_passes : passes undelegate_partially_instant_test = true.
Proof. vm_compute. reflexivity. Qed.

(** liquid-staking/tests/unDelegate_test.rs:105 *)
Definition clean_old_unbond_epochs_test : list tcmd :=
  [TDeploy (1000 * TE18) (1000 * TE18) (1500 * TE18) 0 0;
   TUser 500 (100 * TE18);
   TUser 501 (200 * TE18);
   TAdd 500 (100 * TE18);
   TEpoch 50;
   TDel None;
   TAdd 501 (905 * TE17);
   TRem 500 (90 * TE18);
   CPend (15 * TE17);
   CQueue (1 * TE18);
   CLs 500 (10 * TE18);
   CUst 500 1 (1 * TE18) (Some (50, 60));
   CEgld 500 (89 * TE18);
   TEpoch 51;
   TRem 501 (905 * TE17);
   CUst 501 2 (890 * TE17) (Some (51, 61))].
Example clean_old_unbond_epochs_test_passes : passes clean_old_unbond_epochs_test = true.
Proof. vm_compute. reflexivity. Qed.

(** liquid-staking/tests/unDelegate_test.rs:170 *)
Definition calculate_partial_undelegate_fallback_test : list tcmd :=
  [TDeploy (1000 * TE18) (1000 * TE18) (1500 * TE18) 0 0;
   TUser 500 (100 * TE18);
   TAdd 500 (100 * TE18);
   TEpoch 50;
   CStorage (101 * TE18) (101 * TE18) (0 * TE18) (0 * TE18) (100 * TE18) (0 * TE18);
   TDel None;
   CStorage (101 * TE18) (101 * TE18) (0 * TE18) (0 * TE18) (0 * TE18) (0 * TE18);
   TUser 501 (2 * TE18);
   TAdd 501 (15 * TE17);
   CPend (15 * TE17);
   TRem 500 (2 * TE18);
   CPend (10 * TE17);
   CQueue (15 * TE17);
   CLs 500 (98 * TE18);
   CUst 500 1 (15 * TE17) (Some (50, 60));
   CEgld 500 (5 * TE17)].
Example calculate_partial_undelegate_fallback_test_passes : passes calculate_partial_undelegate_fallback_test = true.
Proof. vm_compute. reflexivity. Qed.

(** liquid-staking/tests/unDelegate_test.rs:234 *)
Definition undelegate_can_fully_pending_redeem : list tcmd :=
  [TDeploy (1000 * TE18) (1000 * TE18) (1500 * TE18) 0 0;
   TDeploy (1000 * TE18) (1000 * TE18) (1500 * TE18) 0 0;
   TUser 500 (100 * TE18);
   TUser 501 (30 * TE18);
   TAdd 500 (100 * TE18);
   TEpoch 50;
   TDel None;
   CProv 0 (51 * TE18) (0 * TE18);
   CProv 1 (51 * TE18) (0 * TE18);
   TAdd 501 (30 * TE18);
   TRem 500 (90 * TE18);
   CLs 500 (10 * TE18);
   CUst 500 1 (60 * TE18) (Some (50, 60));
   CEgld 500 (30 * TE18)].
Example undelegate_can_fully_pending_redeem_passes : passes undelegate_can_fully_pending_redeem = true.
Proof. vm_compute. reflexivity. Qed.

(** liquid-staking/tests/unDelegate_test.rs:315 *)
Definition undelegate_small_amount_error_test : list tcmd :=
  [TDeploy (1000 * TE18) (1000 * TE18) (1500 * TE18) 0 0;
   TUser 500 (2 * TE18);
   TUser 501 (2 * TE18);
   TAdd 500 (2 * TE18);
   TEpoch 50;
   TDel None;
   TAdd 501 (12 * TE17);
   TRemErr 500 (3 * TE17) EInsufficientUnstakePending].
Example undelegate_small_amount_error_test_passes : passes undelegate_small_amount_error_test = true.
Proof. vm_compute. reflexivity. Qed.

(** liquid-staking/tests/unDelegate_test.rs:351 *)
Definition liquid_staking_un_delegate_custom_amount_under_min_pending_error_test : list tcmd :=
  [TDeploy (1000 * TE18) (1000 * TE18) (1500 * TE18) 0 0;
   TUser 500 (10 * TE18);
   TAdd 500 (3 * TE18);
   TDel None;
   TRem 500 (3 * TE18);
   TUndErr (Some (5 * TE17)) EInsufficientPendingEgld].
Example liquid_staking_un_delegate_custom_amount_under_min_pending_error_test_passes : passes liquid_staking_un_delegate_custom_amount_under_min_pending_error_test = true.
Proof. vm_compute. reflexivity. Qed.

(** liquid-staking/tests/unDelegate_test.rs:372 *)
Definition liquid_staking_un_delegate_custom_amount_pending_error_test : list tcmd :=
  [TDeploy (1000 * TE18) (1000 * TE18) (1500 * TE18) 0 0;
   TUser 500 (10 * TE18);
   TAdd 500 (3 * TE18);
   TDel None;
   TRem 500 (3 * TE18);
   TUndErr (Some (40 * TE17)) EInsufficientPendingEgld].
Example liquid_staking_un_delegate_custom_amount_pending_error_test_passes : passes liquid_staking_un_delegate_custom_amount_pending_error_test = true.
Proof. vm_compute. reflexivity. Qed.

(** liquid-staking/tests/unDelegate_test.rs:393 *)
Definition liquid_staking_un_delegate_custom_amount_left_over_pending_error_test : list tcmd :=
  [TDeploy (1000 * TE18) (1000 * TE18) (1500 * TE18) 0 0;
   TUser 500 (10 * TE18);
   TAdd 500 (3 * TE18);
   TDel None;
   TRem 500 (3 * TE18);
   TUndErr (Some (25 * TE17)) EInsufficientPendingEgld].
Example liquid_staking_un_delegate_custom_amount_left_over_pending_error_test_passes : passes liquid_staking_un_delegate_custom_amount_left_over_pending_error_test = true.
Proof. vm_compute. reflexivity. Qed.

(** liquid-staking/tests/unDelegate_test.rs:413 *)
Definition liquid_staking_un_delegate_custom_amount_full_pending_test : list tcmd :=
  [TDeploy (1000 * TE18) (1000 * TE18) (1500 * TE18) 0 0;
   TUser 500 (10 * TE18);
   TAdd 500 (3 * TE18);
   TDel None;
   TRem 500 (3 * TE18);
   TUnd (Some (3 * TE18))].
Example liquid_staking_un_delegate_custom_amount_full_pending_test_passes : passes liquid_staking_un_delegate_custom_amount_full_pending_test = true.
Proof. vm_compute. reflexivity. Qed.

(** liquid-staking/tests/unDelegate_test.rs:430 *)
Definition undelegate_remaining_amount_distribution_test : list tcmd :=
  [TDeploy (1000 * TE18) (1000 * TE18) (1200 * TE18) 4 8000;
   TDeploy (1000 * TE18) (1000 * TE18) (1050 * TE18) 5 9000;
   TUser 500 (100 * TE18);
   TAdd 500 (100 * TE18);
   TDel None;
   TRem 500 (98 * TE18);
   TEpoch 50;
   TUnd None;
   CUst 500 1 (98 * TE18) (Some (0, 10))].
Example undelegate_remaining_amount_distribution_test_passes : passes undelegate_remaining_amount_distribution_test = true.
Proof. vm_compute. reflexivity. Qed.

(** liquid-staking/tests/unDelegate_test.rs:478 *)
Definition undelegate_left_over_amount_condition_test : list tcmd :=
  [TDeploy (1000 * TE18) (1000 * TE18) (1200 * TE18) 4 8000;
   TDeploy (1000 * TE18) (1000 * TE18) (1200 * TE18) 5 9000;
   TDeploy (1000 * TE18) (1000 * TE18) (1200 * TE18) 6 10000;
   TUser 500 (153 * TE18);
   TAdd 500 (153 * TE18);
   TDel None;
   TRem 500 (150 * TE18);
   TEpoch 50;
   TUnd None;
   CUst 500 1 (150 * TE18) (Some (0, 10))].
Example undelegate_left_over_amount_condition_test_passes : passes undelegate_left_over_amount_condition_test = true.
Proof. vm_compute. reflexivity. Qed.

(** liquid-staking/tests/unDelegate_test.rs:545 *)
Definition undelegate_left_over_min_egld_condition_test : list tcmd :=
  [TDeploy (1000 * TE18) (1000 * TE18) (1200 * TE18) 4 12000;
   TDeploy (1000 * TE18) (1000 * TE18) (1200 * TE18) 5 8000;
   TDeploy (1000 * TE18) (1000 * TE18) (1200 * TE18) 6 10000;
   TUser 500 (60 * TE18);
   TAdd 500 (60 * TE18);
   TDel None;
   TRem 500 (57 * TE18);
   TEpoch 50;
   TUnd None].
Example undelegate_left_over_min_egld_condition_test_passes : passes undelegate_left_over_min_egld_condition_test = true.
Proof. vm_compute. reflexivity. Qed.

(** liquid-staking/tests/unDelegate_test.rs:602 *)
Definition undelegate_remaining_amount_over_provider_limit_test : list tcmd :=
  [TDeploy (1000 * TE18) (1000 * TE18) (0 * TE18) 0 8000;
   TDeploy (1000 * TE18) (1000 * TE18) (0 * TE18) 1 8100;
   TDeploy (1000 * TE18) (1000 * TE18) (0 * TE18) 2 8200;
   TDeploy (1000 * TE18) (1000 * TE18) (0 * TE18) 3 8300;
   TDeploy (1000 * TE18) (1000 * TE18) (0 * TE18) 4 8400;
   TDeploy (1000 * TE18) (1000 * TE18) (0 * TE18) 5 8500;
   TDeploy (1000 * TE18) (1000 * TE18) (0 * TE18) 6 8600;
   TDeploy (1000 * TE18) (1000 * TE18) (0 * TE18) 7 8700;
   TDeploy (1000 * TE18) (1000 * TE18) (0 * TE18) 8 8800;
   TDeploy (1000 * TE18) (1000 * TE18) (0 * TE18) 9 8900;
   TDeploy (1000 * TE18) (1000 * TE18) (0 * TE18) 10 9000;
   TDeploy (1000 * TE18) (1000 * TE18) (0 * TE18) 11 9100;
   TDeploy (1000 * TE18) (1000 * TE18) (0 * TE18) 12 9200;
   TDeploy (1000 * TE18) (1000 * TE18) (0 * TE18) 13 9300;
   TDeploy (1000 * TE18) (1000 * TE18) (0 * TE18) 14 9400;
   TDeploy (1000 * TE18) (1000 * TE18) (0 * TE18) 15 9500;
   TDeploy (1000 * TE18) (1000 * TE18) (0 * TE18) 16 9600;
   TDeploy (1000 * TE18) (1000 * TE18) (0 * TE18) 17 9700;
   TDeploy (1000 * TE18) (1000 * TE18) (0 * TE18) 18 9800;
   TDeploy (1000 * TE18) (1000 * TE18) (0 * TE18) 19 9900;
   TDeploy (1000 * TE18) (1000 * TE18) (0 * TE18) 20 10000;
   TDeploy (1000 * TE18) (1000 * TE18) (0 * TE18) 21 10100;
   TDeploy (1000 * TE18) (1000 * TE18) (0 * TE18) 22 10200;
   TDeploy (1000 * TE18) (1000 * TE18) (0 * TE18) 23 10300;
   TDeploy (1000 * TE18) (1000 * TE18) (0 * TE18) 24 10400;
   TDeploy (1000 * TE18) (1000 * TE18) (0 * TE18) 25 10500;
   TDeploy (1000 * TE18) (1000 * TE18) (0 * TE18) 26 10600;
   TDeploy (1000 * TE18) (1000 * TE18) (0 * TE18) 27 10700;
   TDeploy (1000 * TE18) (1000 * TE18) (0 * TE18) 28 10800;
   TDeploy (1000 * TE18) (1000 * TE18) (0 * TE18) 29 10900;
   TDeploy (1000 * TE18) (1000 * TE18) (0 * TE18) 30 11000;
   TDeploy (1000 * TE18) (1000 * TE18) (0 * TE18) 31 11100;
   TDeploy (1000 * TE18) (1000 * TE18) (0 * TE18) 32 11200;
   TDeploy (1000 * TE18) (1000 * TE18) (0 * TE18) 33 11300;
   TDeploy (1000 * TE18) (1000 * TE18) (0 * TE18) 34 11400;
   TDeploy (1000 * TE18) (1000 * TE18) (0 * TE18) 35 11500;
   TDeploy (1000 * TE18) (1000 * TE18) (0 * TE18) 36 11600;
   TDeploy (1000 * TE18) (1000 * TE18) (0 * TE18) 37 11700;
   TDeploy (1000 * TE18) (1000 * TE18) (0 * TE18) 38 11800;
   TDeploy (1000 * TE18) (1000 * TE18) (0 * TE18) 39 11900;
   TDeploy (1000 * TE18) (1000 * TE18) (0 * TE18) 40 12000;
   TDeploy (1000 * TE18) (1000 * TE18) (0 * TE18) 41 12100;
   TDeploy (1000 * TE18) (1000 * TE18) (0 * TE18) 42 12200;
   TDeploy (1000 * TE18) (1000 * TE18) (0 * TE18) 43 12300;
   TDeploy (1000 * TE18) (1000 * TE18) (0 * TE18) 44 12400;
   TDeploy (1000 * TE18) (1000 * TE18) (0 * TE18) 45 12500;
   TDeploy (1000 * TE18) (1000 * TE18) (0 * TE18) 46 12600;
   TDeploy (1000 * TE18) (1000 * TE18) (0 * TE18) 47 12700;
   TDeploy (1000 * TE18) (1000 * TE18) (0 * TE18) 48 12800;
   TDeploy (1000 * TE18) (1000 * TE18) (0 * TE18) 49 12900;
   TDeploy (1000 * TE18) (1000 * TE18) (0 * TE18) 50 13000;
   TDeploy (1000 * TE18) (1000 * TE18) (0 * TE18) 51 13100;
   TDeploy (1000 * TE18) (1000 * TE18) (0 * TE18) 52 13200;
   TDeploy (1000 * TE18) (1000 * TE18) (0 * TE18) 53 13300;
   TDeploy (1000 * TE18) (1000 * TE18) (0 * TE18) 54 13400;
   TDeploy (1000 * TE18) (1000 * TE18) (0 * TE18) 55 13500;
   TDeploy (1000 * TE18) (1000 * TE18) (0 * TE18) 56 13600;
   TDeploy (1000 * TE18) (1000 * TE18) (0 * TE18) 57 13700;
   TDeploy (1000 * TE18) (1000 * TE18) (0 * TE18) 58 13800;
   TDeploy (1000 * TE18) (1000 * TE18) (0 * TE18) 59 13900;
   TUser 500 (200000 * TE18);
   TAdd 500 (20000 * TE18);
   TDel None;
   TAdd 500 (20000 * TE18);
   TDel None;
   TAdd 500 (20000 * TE18);
   TDel None;
   TAdd 500 (20000 * TE18);
   TDel None;
   TAdd 500 (20000 * TE18);
   TDel None;
   TRem 500 (50000 * TE18);
   TEpoch 50;
   TUnd None].
Example undelegate_remaining_amount_over_provider_limit_test_passes : passes undelegate_remaining_amount_over_provider_limit_test = true.
Proof. vm_compute. reflexivity. Qed.

(** liquid-staking/tests/unDelegate_test.rs:644 *)
Definition delegate_remaining_amount_over_provider_limit_test : list tcmd :=
  [TDeploy (0 * TE18) (0 * TE18) (100 * TE18) 1 9000;
   TDeploy (0 * TE18) (0 * TE18) (100 * TE18) 1 9000;
   TDeploy (0 * TE18) (0 * TE18) (100 * TE18) 1 9000;
   TDeploy (0 * TE18) (0 * TE18) (100 * TE18) 1 9000;
   TDeploy (0 * TE18) (0 * TE18) (100 * TE18) 1 9000;
   TDeploy (0 * TE18) (0 * TE18) (100 * TE18) 1 9000;
   TDeploy (0 * TE18) (0 * TE18) (100 * TE18) 1 9000;
   TDeploy (0 * TE18) (0 * TE18) (100 * TE18) 1 9000;
   TDeploy (0 * TE18) (0 * TE18) (100 * TE18) 1 9000;
   TDeploy (0 * TE18) (0 * TE18) (100 * TE18) 1 9000;
   TDeploy (0 * TE18) (0 * TE18) (100 * TE18) 1 9000;
   TDeploy (0 * TE18) (0 * TE18) (100 * TE18) 1 9000;
   TDeploy (0 * TE18) (0 * TE18) (100 * TE18) 1 9000;
   TDeploy (0 * TE18) (0 * TE18) (100 * TE18) 1 9000;
   TDeploy (0 * TE18) (0 * TE18) (100 * TE18) 1 9000;
   TDeploy (0 * TE18) (0 * TE18) (100 * TE18) 1 9000;
   TDeploy (0 * TE18) (0 * TE18) (100 * TE18) 1 9000;
   TDeploy (0 * TE18) (0 * TE18) (100 * TE18) 1 9000;
   TDeploy (0 * TE18) (0 * TE18) (100 * TE18) 1 9000;
   TDeploy (0 * TE18) (0 * TE18) (100 * TE18) 1 9000;
   TDeploy (0 * TE18) (0 * TE18) (100 * TE18) 1 9000;
   TDeploy (0 * TE18) (0 * TE18) (100 * TE18) 1 9000;
   TDeploy (0 * TE18) (0 * TE18) (100 * TE18) 1 9000;
   TDeploy (0 * TE18) (0 * TE18) (100 * TE18) 1 9000;
   TDeploy (0 * TE18) (0 * TE18) (100 * TE18) 1 9000;
   TDeploy (0 * TE18) (0 * TE18) (100 * TE18) 1 9000;
   TDeploy (0 * TE18) (0 * TE18) (100 * TE18) 1 9000;
   TDeploy (0 * TE18) (0 * TE18) (100 * TE18) 1 9000;
   TDeploy (0 * TE18) (0 * TE18) (100 * TE18) 1 9000;
   TDeploy (0 * TE18) (0 * TE18) (100 * TE18) 1 9000;
   TDeploy (0 * TE18) (0 * TE18) (100 * TE18) 1 9000;
   TDeploy (0 * TE18) (0 * TE18) (100 * TE18) 1 9000;
   TDeploy (0 * TE18) (0 * TE18) (100 * TE18) 1 9000;
   TDeploy (0 * TE18) (0 * TE18) (100 * TE18) 1 9000;
   TDeploy (0 * TE18) (0 * TE18) (100 * TE18) 1 9000;
   TDeploy (0 * TE18) (0 * TE18) (100 * TE18) 1 9000;
   TDeploy (0 * TE18) (0 * TE18) (100 * TE18) 1 9000;
   TDeploy (0 * TE18) (0 * TE18) (100 * TE18) 1 9000;
   TDeploy (0 * TE18) (0 * TE18) (100 * TE18) 1 9000;
   TDeploy (0 * TE18) (0 * TE18) (100 * TE18) 1 9000;
   TDeploy (0 * TE18) (0 * TE18) (100 * TE18) 1 9000;
   TDeploy (0 * TE18) (0 * TE18) (100 * TE18) 1 9000;
   TDeploy (0 * TE18) (0 * TE18) (100 * TE18) 1 9000;
   TDeploy (0 * TE18) (0 * TE18) (100 * TE18) 1 9000;
   TDeploy (0 * TE18) (0 * TE18) (100 * TE18) 1 9000;
   TDeploy (0 * TE18) (0 * TE18) (100 * TE18) 1 9000;
   TDeploy (0 * TE18) (0 * TE18) (100 * TE18) 1 9000;
   TDeploy (0 * TE18) (0 * TE18) (100 * TE18) 1 9000;
   TDeploy (0 * TE18) (0 * TE18) (100 * TE18) 1 9000;
   TDeploy (0 * TE18) (0 * TE18) (100 * TE18) 1 9000;
   TDeploy (0 * TE18) (0 * TE18) (100 * TE18) 1 9000;
   TDeploy (0 * TE18) (0 * TE18) (10 * TE18) 1 9000;
   TDeploy (0 * TE18) (0 * TE18) (10 * TE18) 1 9000;
   TDeploy (0 * TE18) (0 * TE18) (10 * TE18) 1 9000;
   TDeploy (0 * TE18) (0 * TE18) (10 * TE18) 1 9000;
   TDeploy (0 * TE18) (0 * TE18) (10 * TE18) 1 9000;
   TDeploy (0 * TE18) (0 * TE18) (10 * TE18) 1 9000;
   TDeploy (0 * TE18) (0 * TE18) (10 * TE18) 1 9000;
   TDeploy (0 * TE18) (0 * TE18) (10 * TE18) 1 9000;
   TDeploy (0 * TE18) (0 * TE18) (10 * TE18) 1 9000;
   TUser 500 (5000000 * TE18);
   TAdd 500 (2500000 * TE18);
   TDel None].
Example delegate_remaining_amount_over_provider_limit_test_passes : passes delegate_remaining_amount_over_provider_limit_test = true.
Proof. vm_compute. reflexivity. Qed.

(** liquid-staking/tests/unDelegate_test.rs:669 *)
Definition full_un_delegate_test : list tcmd :=
  [TDeploy (0 * TE18) (0 * TE18) (0 * TE18) 42 985;
   TDeploy (0 * TE18) (0 * TE18) (0 * TE18) 20 702;
   TDeploy (0 * TE18) (0 * TE18) (0 * TE18) 84 524;
   TDeploy (0 * TE18) (0 * TE18) (0 * TE18) 10 920;
   TDeploy (0 * TE18) (0 * TE18) (0 * TE18) 69 548;
   TDeploy (0 * TE18) (0 * TE18) (0 * TE18) 47 798;
   TDeploy (0 * TE18) (0 * TE18) (0 * TE18) 8 965;
   TDeploy (0 * TE18) (0 * TE18) (0 * TE18) 65 609;
   TDeploy (0 * TE18) (0 * TE18) (0 * TE18) 5 544;
   TDeploy (0 * TE18) (0 * TE18) (0 * TE18) 56 714;
   TDeploy (0 * TE18) (0 * TE18) (0 * TE18) 9 623;
   TDeploy (0 * TE18) (0 * TE18) (0 * TE18) 12 782;
   TDeploy (0 * TE18) (0 * TE18) (0 * TE18) 55 530;
   TDeploy (0 * TE18) (0 * TE18) (0 * TE18) 73 563;
   TDeploy (0 * TE18) (0 * TE18) (0 * TE18) 29 822;
   TDeploy (0 * TE18) (0 * TE18) (0 * TE18) 81 798;
   TDeploy (0 * TE18) (0 * TE18) (0 * TE18) 8 795;
   TDeploy (0 * TE18) (0 * TE18) (0 * TE18) 75 703;
   TDeploy (0 * TE18) (0 * TE18) (0 * TE18) 7 999;
   TDeploy (0 * TE18) (0 * TE18) (0 * TE18) 29 523;
   TDeploy (0 * TE18) (0 * TE18) (0 * TE18) 72 939;
   TDeploy (0 * TE18) (0 * TE18) (0 * TE18) 18 648;
   TDeploy (0 * TE18) (0 * TE18) (0 * TE18) 54 573;
   TDeploy (0 * TE18) (0 * TE18) (0 * TE18) 70 560;
   TDeploy (0 * TE18) (0 * TE18) (0 * TE18) 74 657;
   TDeploy (0 * TE18) (0 * TE18) (0 * TE18) 72 917;
   TDeploy (0 * TE18) (0 * TE18) (0 * TE18) 88 592;
   TDeploy (0 * TE18) (0 * TE18) (0 * TE18) 14 797;
   TDeploy (0 * TE18) (0 * TE18) (0 * TE18) 74 827;
   TDeploy (0 * TE18) (0 * TE18) (0 * TE18) 25 690;
   TDeploy (0 * TE18) (0 * TE18) (0 * TE18) 13 780;
   TDeploy (0 * TE18) (0 * TE18) (0 * TE18) 92 532;
   TDeploy (0 * TE18) (0 * TE18) (0 * TE18) 73 530;
   TDeploy (0 * TE18) (0 * TE18) (0 * TE18) 80 605;
   TDeploy (0 * TE18) (0 * TE18) (0 * TE18) 64 848;
   TDeploy (0 * TE18) (0 * TE18) (0 * TE18) 69 718;
   TDeploy (0 * TE18) (0 * TE18) (0 * TE18) 100 660;
   TDeploy (0 * TE18) (0 * TE18) (0 * TE18) 60 799;
   TDeploy (0 * TE18) (0 * TE18) (0 * TE18) 59 685;
   TDeploy (0 * TE18) (0 * TE18) (0 * TE18) 39 627;
   TDeploy (0 * TE18) (0 * TE18) (0 * TE18) 24 857;
   TDeploy (0 * TE18) (0 * TE18) (0 * TE18) 100 624;
   TDeploy (0 * TE18) (0 * TE18) (0 * TE18) 11 794;
   TDeploy (0 * TE18) (0 * TE18) (0 * TE18) 39 768;
   TDeploy (0 * TE18) (0 * TE18) (0 * TE18) 64 948;
   TDeploy (0 * TE18) (0 * TE18) (0 * TE18) 44 873;
   TDeploy (0 * TE18) (0 * TE18) (0 * TE18) 58 647;
   TDeploy (0 * TE18) (0 * TE18) (0 * TE18) 78 537;
   TDeploy (0 * TE18) (0 * TE18) (0 * TE18) 16 762;
   TDeploy (0 * TE18) (0 * TE18) (0 * TE18) 54 584;
   TDeploy (0 * TE18) (0 * TE18) (0 * TE18) 97 675;
   TDeploy (0 * TE18) (0 * TE18) (0 * TE18) 20 977;
   TDeploy (0 * TE18) (0 * TE18) (0 * TE18) 63 715;
   TDeploy (0 * TE18) (0 * TE18) (0 * TE18) 6 992;
   TDeploy (0 * TE18) (0 * TE18) (0 * TE18) 86 539;
   TDeploy (0 * TE18) (0 * TE18) (0 * TE18) 98 785;
   TDeploy (0 * TE18) (0 * TE18) (0 * TE18) 74 904;
   TDeploy (0 * TE18) (0 * TE18) (0 * TE18) 41 674;
   TDeploy (0 * TE18) (0 * TE18) (0 * TE18) 89 679;
   TDeploy (0 * TE18) (0 * TE18) (0 * TE18) 77 754;
   TUser 500 (60000 * TE18);
   TAdd 500 (20000 * TE18);
   TDel None;
   TAdd 500 (20000 * TE18);
   TDel None;
   TAdd 500 (20000 * TE18);
   TDel None;
   TRem 500 (60000 * TE18);
   TUnd None;
   TUnd None;
   TUnd None;
   CQueue 0].
Example full_un_delegate_test_passes : passes full_un_delegate_test = true.
Proof. vm_compute. reflexivity. Qed.

(** liquid-staking/tests/unDelegate_test.rs:710 *)
Definition test_scoring_config_distribution : list tcmd :=
  [TDeploy (0 * TE18) (0 * TE18) (0 * TE18) 75 908;
   TDeploy (0 * TE18) (0 * TE18) (0 * TE18) 59 535;
   TDeploy (0 * TE18) (0 * TE18) (0 * TE18) 12 983;
   TDeploy (0 * TE18) (0 * TE18) (0 * TE18) 35 742;
   TDeploy (0 * TE18) (0 * TE18) (0 * TE18) 90 840;
   TDeploy (0 * TE18) (0 * TE18) (0 * TE18) 9 531;
   TDeploy (0 * TE18) (0 * TE18) (0 * TE18) 94 859;
   TDeploy (0 * TE18) (0 * TE18) (0 * TE18) 40 831;
   TDeploy (0 * TE18) (0 * TE18) (0 * TE18) 74 848;
   TDeploy (0 * TE18) (0 * TE18) (0 * TE18) 58 645;
   TDeploy (0 * TE18) (0 * TE18) (0 * TE18) 92 697;
   TDeploy (0 * TE18) (0 * TE18) (0 * TE18) 86 677;
   TDeploy (0 * TE18) (0 * TE18) (0 * TE18) 3 981;
   TDeploy (0 * TE18) (0 * TE18) (0 * TE18) 60 681;
   TDeploy (0 * TE18) (0 * TE18) (0 * TE18) 22 812;
   TDeploy (0 * TE18) (0 * TE18) (0 * TE18) 15 752;
   TDeploy (0 * TE18) (0 * TE18) (0 * TE18) 8 611;
   TDeploy (0 * TE18) (0 * TE18) (0 * TE18) 99 647;
   TDeploy (0 * TE18) (0 * TE18) (0 * TE18) 17 878;
   TDeploy (0 * TE18) (0 * TE18) (0 * TE18) 32 703;
   TDeploy (0 * TE18) (0 * TE18) (0 * TE18) 51 969;
   TDeploy (0 * TE18) (0 * TE18) (0 * TE18) 64 541;
   TDeploy (0 * TE18) (0 * TE18) (0 * TE18) 22 729;
   TDeploy (0 * TE18) (0 * TE18) (0 * TE18) 52 781;
   TDeploy (0 * TE18) (0 * TE18) (0 * TE18) 36 952;
   TDeploy (0 * TE18) (0 * TE18) (0 * TE18) 18 919;
   TDeploy (0 * TE18) (0 * TE18) (0 * TE18) 56 942;
   TDeploy (0 * TE18) (0 * TE18) (0 * TE18) 71 642;
   TDeploy (0 * TE18) (0 * TE18) (0 * TE18) 91 712;
   TDeploy (0 * TE18) (0 * TE18) (0 * TE18) 46 849;
   TDeploy (0 * TE18) (0 * TE18) (0 * TE18) 49 990;
   TDeploy (0 * TE18) (0 * TE18) (0 * TE18) 30 577;
   TDeploy (0 * TE18) (0 * TE18) (0 * TE18) 11 590;
   TDeploy (0 * TE18) (0 * TE18) (0 * TE18) 20 618;
   TDeploy (0 * TE18) (0 * TE18) (0 * TE18) 85 619;
   TDeploy (0 * TE18) (0 * TE18) (0 * TE18) 2 748;
   TDeploy (0 * TE18) (0 * TE18) (0 * TE18) 76 593;
   TDeploy (0 * TE18) (0 * TE18) (0 * TE18) 34 644;
   TDeploy (0 * TE18) (0 * TE18) (0 * TE18) 1 574;
   TDeploy (0 * TE18) (0 * TE18) (0 * TE18) 54 773;
   TDeploy (0 * TE18) (0 * TE18) (0 * TE18) 48 812;
   TDeploy (0 * TE18) (0 * TE18) (0 * TE18) 73 663;
   TDeploy (0 * TE18) (0 * TE18) (0 * TE18) 17 853;
   TDeploy (0 * TE18) (0 * TE18) (0 * TE18) 66 986;
   TDeploy (0 * TE18) (0 * TE18) (0 * TE18) 80 835;
   TDeploy (0 * TE18) (0 * TE18) (0 * TE18) 87 878;
   TDeploy (0 * TE18) (0 * TE18) (0 * TE18) 7 733;
   TDeploy (0 * TE18) (0 * TE18) (0 * TE18) 100 987;
   TDeploy (0 * TE18) (0 * TE18) (0 * TE18) 88 908;
   TDeploy (0 * TE18) (0 * TE18) (0 * TE18) 72 700;
   TDeploy (0 * TE18) (0 * TE18) (0 * TE18) 51 704;
   TDeploy (0 * TE18) (0 * TE18) (0 * TE18) 51 553;
   TDeploy (0 * TE18) (0 * TE18) (0 * TE18) 62 824;
   TDeploy (0 * TE18) (0 * TE18) (0 * TE18) 52 531;
   TDeploy (0 * TE18) (0 * TE18) (0 * TE18) 25 534;
   TDeploy (0 * TE18) (0 * TE18) (0 * TE18) 27 725;
   TDeploy (0 * TE18) (0 * TE18) (0 * TE18) 21 556;
   TDeploy (0 * TE18) (0 * TE18) (0 * TE18) 44 807;
   TDeploy (0 * TE18) (0 * TE18) (0 * TE18) 7 552;
   TDeploy (0 * TE18) (0 * TE18) (0 * TE18) 1 790;
   TUser 500 (120000 * TE18);
   TAdd 500 (20000 * TE18);
   TDel None;
   TAdd 500 (20000 * TE18);
   TDel None;
   TAdd 500 (20000 * TE18);
   TDel None;
   TDeploy (0 * TE18) (0 * TE18) (0 * TE18) 20 774;
   TDeploy (0 * TE18) (0 * TE18) (0 * TE18) 13 985;
   TDeploy (0 * TE18) (0 * TE18) (0 * TE18) 47 814;
   TDeploy (0 * TE18) (0 * TE18) (0 * TE18) 4 536;
   TDeploy (0 * TE18) (0 * TE18) (0 * TE18) 27 814;
   TDeploy (0 * TE18) (0 * TE18) (0 * TE18) 49 576;
   TDeploy (0 * TE18) (0 * TE18) (0 * TE18) 82 629;
   TDeploy (0 * TE18) (0 * TE18) (0 * TE18) 45 808;
   TDeploy (0 * TE18) (0 * TE18) (0 * TE18) 47 742;
   TDeploy (0 * TE18) (0 * TE18) (0 * TE18) 16 559;
   TAdd 500 (20000 * TE18);
   TDel None;
   TAdd 500 (20000 * TE18);
   TDel None;
   TAdd 500 (20000 * TE18);
   TDel None].
Example test_scoring_config_distribution_passes : passes test_scoring_config_distribution = true.
Proof. vm_compute. reflexivity. Qed.

(** liquid-staking/tests/unDelegate_test.rs:761 *)
Definition full_small_first_amount_un_delegate_test : list tcmd :=
  [TDeploy (0 * TE18) (0 * TE18) (0 * TE18) 63 1000;
   TDeploy (0 * TE18) (0 * TE18) (0 * TE18) 60 745;
   TDeploy (0 * TE18) (0 * TE18) (0 * TE18) 62 659;
   TDeploy (0 * TE18) (0 * TE18) (0 * TE18) 11 573;
   TDeploy (0 * TE18) (0 * TE18) (0 * TE18) 14 883;
   TDeploy (0 * TE18) (0 * TE18) (0 * TE18) 44 879;
   TDeploy (0 * TE18) (0 * TE18) (0 * TE18) 34 745;
   TDeploy (0 * TE18) (0 * TE18) (0 * TE18) 89 582;
   TDeploy (0 * TE18) (0 * TE18) (0 * TE18) 67 511;
   TDeploy (0 * TE18) (0 * TE18) (0 * TE18) 27 986;
   TDeploy (0 * TE18) (0 * TE18) (0 * TE18) 68 685;
   TDeploy (0 * TE18) (0 * TE18) (0 * TE18) 19 853;
   TDeploy (0 * TE18) (0 * TE18) (0 * TE18) 70 968;
   TDeploy (0 * TE18) (0 * TE18) (0 * TE18) 4 888;
   TDeploy (0 * TE18) (0 * TE18) (0 * TE18) 68 652;
   TDeploy (0 * TE18) (0 * TE18) (0 * TE18) 83 942;
   TDeploy (0 * TE18) (0 * TE18) (0 * TE18) 12 856;
   TDeploy (0 * TE18) (0 * TE18) (0 * TE18) 34 765;
   TDeploy (0 * TE18) (0 * TE18) (0 * TE18) 47 965;
   TDeploy (0 * TE18) (0 * TE18) (0 * TE18) 22 682;
   TDeploy (0 * TE18) (0 * TE18) (0 * TE18) 99 614;
   TDeploy (0 * TE18) (0 * TE18) (0 * TE18) 69 777;
   TDeploy (0 * TE18) (0 * TE18) (0 * TE18) 100 757;
   TDeploy (0 * TE18) (0 * TE18) (0 * TE18) 43 825;
   TDeploy (0 * TE18) (0 * TE18) (0 * TE18) 29 813;
   TDeploy (0 * TE18) (0 * TE18) (0 * TE18) 98 936;
   TDeploy (0 * TE18) (0 * TE18) (0 * TE18) 25 912;
   TDeploy (0 * TE18) (0 * TE18) (0 * TE18) 31 918;
   TDeploy (0 * TE18) (0 * TE18) (0 * TE18) 52 878;
   TDeploy (0 * TE18) (0 * TE18) (0 * TE18) 30 602;
   TDeploy (0 * TE18) (0 * TE18) (0 * TE18) 67 752;
   TDeploy (0 * TE18) (0 * TE18) (0 * TE18) 46 874;
   TDeploy (0 * TE18) (0 * TE18) (0 * TE18) 4 514;
   TDeploy (0 * TE18) (0 * TE18) (0 * TE18) 36 741;
   TDeploy (0 * TE18) (0 * TE18) (0 * TE18) 34 599;
   TDeploy (0 * TE18) (0 * TE18) (0 * TE18) 89 809;
   TDeploy (0 * TE18) (0 * TE18) (0 * TE18) 45 728;
   TDeploy (0 * TE18) (0 * TE18) (0 * TE18) 93 678;
   TDeploy (0 * TE18) (0 * TE18) (0 * TE18) 47 541;
   TDeploy (0 * TE18) (0 * TE18) (0 * TE18) 29 552;
   TDeploy (0 * TE18) (0 * TE18) (0 * TE18) 30 740;
   TDeploy (0 * TE18) (0 * TE18) (0 * TE18) 26 672;
   TDeploy (0 * TE18) (0 * TE18) (0 * TE18) 27 747;
   TDeploy (0 * TE18) (0 * TE18) (0 * TE18) 80 960;
   TDeploy (0 * TE18) (0 * TE18) (0 * TE18) 79 930;
   TDeploy (0 * TE18) (0 * TE18) (0 * TE18) 1 745;
   TDeploy (0 * TE18) (0 * TE18) (0 * TE18) 84 676;
   TDeploy (0 * TE18) (0 * TE18) (0 * TE18) 83 543;
   TDeploy (0 * TE18) (0 * TE18) (0 * TE18) 85 561;
   TDeploy (0 * TE18) (0 * TE18) (0 * TE18) 50 900;
   TDeploy (0 * TE18) (0 * TE18) (0 * TE18) 92 884;
   TDeploy (0 * TE18) (0 * TE18) (0 * TE18) 26 744;
   TDeploy (0 * TE18) (0 * TE18) (0 * TE18) 23 722;
   TDeploy (0 * TE18) (0 * TE18) (0 * TE18) 82 670;
   TDeploy (0 * TE18) (0 * TE18) (0 * TE18) 12 910;
   TDeploy (0 * TE18) (0 * TE18) (0 * TE18) 93 702;
   TDeploy (0 * TE18) (0 * TE18) (0 * TE18) 60 705;
   TDeploy (0 * TE18) (0 * TE18) (0 * TE18) 96 984;
   TDeploy (0 * TE18) (0 * TE18) (0 * TE18) 11 871;
   TDeploy (0 * TE18) (0 * TE18) (0 * TE18) 21 587;
   TUser 500 (20 * TE18);
   TAdd 500 (50 * TE17);
   TDel None;
   TAdd 500 (10 * TE17);
   TDel None;
   TRem 500 (17 * TE17);
   TUnd None;
   TRem 500 (10 * TE17);
   TUnd None;
   TRem 500 (10 * TE17);
   TUnd None;
   CQueue 0].
Example full_small_first_amount_un_delegate_test_passes : passes full_small_first_amount_un_delegate_test = true.
Proof. vm_compute. reflexivity. Qed.

(** liquid-staking/tests/unDelegate_test.rs:802 *)
Definition full_over_2_first_amount_un_delegate_test : list tcmd :=
  [TDeploy (0 * TE18) (0 * TE18) (0 * TE18) 17 514;
   TDeploy (0 * TE18) (0 * TE18) (0 * TE18) 20 802;
   TDeploy (0 * TE18) (0 * TE18) (0 * TE18) 60 912;
   TDeploy (0 * TE18) (0 * TE18) (0 * TE18) 84 574;
   TDeploy (0 * TE18) (0 * TE18) (0 * TE18) 79 923;
   TDeploy (0 * TE18) (0 * TE18) (0 * TE18) 77 742;
   TDeploy (0 * TE18) (0 * TE18) (0 * TE18) 85 979;
   TDeploy (0 * TE18) (0 * TE18) (0 * TE18) 45 579;
   TDeploy (0 * TE18) (0 * TE18) (0 * TE18) 71 780;
   TDeploy (0 * TE18) (0 * TE18) (0 * TE18) 17 510;
   TDeploy (0 * TE18) (0 * TE18) (0 * TE18) 2 909;
   TDeploy (0 * TE18) (0 * TE18) (0 * TE18) 93 832;
   TDeploy (0 * TE18) (0 * TE18) (0 * TE18) 14 769;
   TDeploy (0 * TE18) (0 * TE18) (0 * TE18) 96 978;
   TDeploy (0 * TE18) (0 * TE18) (0 * TE18) 18 722;
   TDeploy (0 * TE18) (0 * TE18) (0 * TE18) 25 922;
   TDeploy (0 * TE18) (0 * TE18) (0 * TE18) 28 514;
   TDeploy (0 * TE18) (0 * TE18) (0 * TE18) 33 608;
   TDeploy (0 * TE18) (0 * TE18) (0 * TE18) 38 756;
   TDeploy (0 * TE18) (0 * TE18) (0 * TE18) 31 891;
   TDeploy (0 * TE18) (0 * TE18) (0 * TE18) 76 666;
   TDeploy (0 * TE18) (0 * TE18) (0 * TE18) 34 778;
   TDeploy (0 * TE18) (0 * TE18) (0 * TE18) 54 927;
   TDeploy (0 * TE18) (0 * TE18) (0 * TE18) 17 531;
   TDeploy (0 * TE18) (0 * TE18) (0 * TE18) 95 681;
   TDeploy (0 * TE18) (0 * TE18) (0 * TE18) 59 839;
   TDeploy (0 * TE18) (0 * TE18) (0 * TE18) 75 917;
   TDeploy (0 * TE18) (0 * TE18) (0 * TE18) 67 715;
   TDeploy (0 * TE18) (0 * TE18) (0 * TE18) 65 566;
   TDeploy (0 * TE18) (0 * TE18) (0 * TE18) 69 577;
   TDeploy (0 * TE18) (0 * TE18) (0 * TE18) 68 761;
   TDeploy (0 * TE18) (0 * TE18) (0 * TE18) 3 946;
   TDeploy (0 * TE18) (0 * TE18) (0 * TE18) 57 897;
   TDeploy (0 * TE18) (0 * TE18) (0 * TE18) 24 811;
   TDeploy (0 * TE18) (0 * TE18) (0 * TE18) 1 897;
   TDeploy (0 * TE18) (0 * TE18) (0 * TE18) 20 588;
   TDeploy (0 * TE18) (0 * TE18) (0 * TE18) 19 742;
   TDeploy (0 * TE18) (0 * TE18) (0 * TE18) 80 871;
   TDeploy (0 * TE18) (0 * TE18) (0 * TE18) 16 784;
   TDeploy (0 * TE18) (0 * TE18) (0 * TE18) 8 666;
   TDeploy (0 * TE18) (0 * TE18) (0 * TE18) 88 765;
   TDeploy (0 * TE18) (0 * TE18) (0 * TE18) 68 784;
   TDeploy (0 * TE18) (0 * TE18) (0 * TE18) 62 901;
   TDeploy (0 * TE18) (0 * TE18) (0 * TE18) 100 554;
   TDeploy (0 * TE18) (0 * TE18) (0 * TE18) 72 529;
   TDeploy (0 * TE18) (0 * TE18) (0 * TE18) 32 597;
   TDeploy (0 * TE18) (0 * TE18) (0 * TE18) 36 521;
   TDeploy (0 * TE18) (0 * TE18) (0 * TE18) 99 550;
   TDeploy (0 * TE18) (0 * TE18) (0 * TE18) 65 731;
   TDeploy (0 * TE18) (0 * TE18) (0 * TE18) 72 514;
   TDeploy (0 * TE18) (0 * TE18) (0 * TE18) 98 957;
   TDeploy (0 * TE18) (0 * TE18) (0 * TE18) 9 726;
   TDeploy (0 * TE18) (0 * TE18) (0 * TE18) 42 813;
   TDeploy (0 * TE18) (0 * TE18) (0 * TE18) 65 810;
   TDeploy (0 * TE18) (0 * TE18) (0 * TE18) 66 602;
   TDeploy (0 * TE18) (0 * TE18) (0 * TE18) 89 641;
   TDeploy (0 * TE18) (0 * TE18) (0 * TE18) 58 760;
   TDeploy (0 * TE18) (0 * TE18) (0 * TE18) 69 913;
   TDeploy (0 * TE18) (0 * TE18) (0 * TE18) 62 759;
   TDeploy (0 * TE18) (0 * TE18) (0 * TE18) 32 857;
   TUser 500 (20 * TE18);
   TAdd 500 (21 * TE17);
   TDel None;
   TRem 500 (21 * TE17);
   TUnd None;
   CUst 500 1 (21 * TE17) (Some (0, 10));
   CQueue 0].
Example full_over_2_first_amount_un_delegate_test_passes : passes full_over_2_first_amount_un_delegate_test = true.
Proof. vm_compute. reflexivity. Qed.

(** liquid-staking/tests/unbond_test.rs:21 *)
Definition liquid_staking_unbond_success_test : list tcmd :=
  [TDeploy (1000 * TE18) (1000 * TE18) (1500 * TE18) 0 0;
   TUser 500 (100 * TE18);
   TAdd 500 (100 * TE18);
   TDel None;
   TEpoch 50;
   TRem 500 (90 * TE18);
   CUst 500 1 (90 * TE18) (Some (50, 60));
   CStorage (11 * TE18) (11 * TE18) (0 * TE18) (0 * TE18) (0 * TE18) (90 * TE18);
   TUnd None;
   CStorage (11 * TE18) (11 * TE18) (0 * TE18) (0 * TE18) (0 * TE18) (0 * TE18);
   CProv 0 (11 * TE18) (90 * TE18);
   TEpoch 61;
   TWdp 0;
   CProv 0 (11 * TE18) (0 * TE18);
   CStorage (11 * TE18) (11 * TE18) (0 * TE18) (90 * TE18) (0 * TE18) (0 * TE18);
   TWd 500 1 (90 * TE18);
   CEgld 500 (90 * TE18);
   CUst 500 1 (0 * TE18) None;
   CStorage (11 * TE18) (11 * TE18) (0 * TE18) (0 * TE18) (0 * TE18) (0 * TE18)].
Example liquid_staking_unbond_success_test_passes : passes liquid_staking_unbond_success_test = true.
Proof. vm_compute. reflexivity. Qed.

(** liquid-staking/tests/unbond_test.rs:84 *)
Definition liquid_staking_unbond_error_epoch_too_soon_test : list tcmd :=
  [TDeploy (1000 * TE18) (1000 * TE18) (1500 * TE18) 0 0;
   TUser 500 (100 * TE18);
   TAdd 500 (100 * TE18);
   TDel None;
   TEpoch 50;
   TRem 500 (90 * TE18);
   TUnd None;
   TEpoch 55;
   TWdp 0;
   TWdErr 500 (Pay (TokUst 1) (90 * TE18)) EUnstakePeriodNotPassed].
Example liquid_staking_unbond_error_epoch_too_soon_test_passes : passes liquid_staking_unbond_error_epoch_too_soon_test = true.
Proof. vm_compute. reflexivity. Qed.

(** liquid-staking/tests/unbond_test.rs:124 *)
Definition liquid_staking_unbond_error_epoch_no_withdraw_pending_test : list tcmd :=
  [TDeploy (1000 * TE18) (1000 * TE18) (1500 * TE18) 0 0;
   TUser 500 (100 * TE18);
   TAdd 500 (100 * TE18);
   TDel None;
   TEpoch 50;
   TRem 500 (90 * TE18);
   TUnd None;
   TEpoch 60;
   TWdErr 500 (Pay (TokUst 1) (90 * TE18)) EInsufficientUnbonded].
Example liquid_staking_unbond_error_epoch_no_withdraw_pending_test_passes : passes liquid_staking_unbond_error_epoch_no_withdraw_pending_test = true.
Proof. vm_compute. reflexivity. Qed.

(** liquid-staking/tests/unbond_test.rs:161 *)
Definition liquid_staking_unbond_partial_withdraw_pending_test : list tcmd :=
  [TDeploy (1000 * TE18) (1000 * TE18) (1500 * TE18) 0 0;
   TUser 500 (40 * TE18);
   TUser 501 (100 * TE18);
   TAdd 500 (40 * TE18);
   TAdd 501 (100 * TE18);
   TDel None;
   TEpoch 50;
   TRem 500 (40 * TE18);
   TUnd None;
   TEpoch 51;
   TRem 501 (90 * TE18);
   TEpoch 60;
   TWdp 0;
   TEpoch 61;
   TWd 501 2 (90 * TE18);
   CUst 501 2 (50 * TE18) (Some (51, 61));
   TWdErr 500 (Pay (TokUst 1) (40 * TE18)) EInsufficientUnbonded].
Example liquid_staking_unbond_partial_withdraw_pending_test_passes : passes liquid_staking_unbond_partial_withdraw_pending_test = true.
Proof. vm_compute. reflexivity. Qed.

(** liquid-staking/tests/unbond_test.rs:223 *)
Definition liquid_staking_unbond_error_not_active_test : list tcmd :=
  [TDeploy (1000 * TE18) (1000 * TE18) (1500 * TE18) 0 0;
   TUser 500 (100 * TE18);
   TAdd 500 (100 * TE18);
   TDel None;
   TEpoch 50;
   TRem 500 (90 * TE18);
   TUnd None;
   TEpoch 60;
   TWdp 0;
   TInactive;
   TWdErr 500 (Pay (TokUst 1) (90 * TE18)) ENotActive].
Example liquid_staking_unbond_error_not_active_test_passes : passes liquid_staking_unbond_error_not_active_test = true.
Proof. vm_compute. reflexivity. Qed.

(** liquid-staking/tests/unbond_test.rs:259 *)
Definition liquid_staking_unbond_error_not_amount_sent_test : list tcmd :=
  [TDeploy (1000 * TE18) (1000 * TE18) (1500 * TE18) 0 0;
   TUser 500 (100 * TE18);
   TAdd 500 (100 * TE18);
   TDel None;
   TEpoch 50;
   TRem 500 (90 * TE18);
   TUnd None;
   TEpoch 60;
   TWdp 0;
   TWdErr 500 (Pay (TokUst 1) (0 * TE18)) EBadPaymentAmount].
Example liquid_staking_unbond_error_not_amount_sent_test_passes : passes liquid_staking_unbond_error_not_amount_sent_test = true.
Proof. vm_compute. reflexivity. Qed.

(** liquid-staking/tests/unbond_test.rs:299 *)
Definition liquid_staking_unbond_error_bad_token_test : list tcmd :=
  [TDeploy (1000 * TE18) (1000 * TE18) (1500 * TE18) 0 0;
   TUser 500 (100 * TE18);
   TAdd 500 (100 * TE18);
   TDel None;
   TEpoch 50;
   TRem 500 (90 * TE18);
   TUnd None;
   TEpoch 60;
   TWdp 0;
   TWdErr 500 (Pay TokOther (100 * TE18)) EBadPaymentToken].
Example liquid_staking_unbond_error_bad_token_test_passes : passes liquid_staking_unbond_error_bad_token_test = true.
Proof. vm_compute. reflexivity. Qed.
