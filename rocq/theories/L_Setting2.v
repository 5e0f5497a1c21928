(** L_Setting2.v — for every endpoint and setting of the list [looks] there is a
    state where the setting makes a difference. *)
From Coq Require Import String.
From Verif Require Import L_Setting Scenario Spec14.
Open Scope N_scope.

(** everything is in use: a manager, a migration contract, both queues filled,
    EGLD to withdraw, fees collected *)
Definition w_busy : world :=
  run w_ready [OTx 100 0 [] (AddManagers [101]); OTx 100 0 [] (SetMigrationSc 1500);
               OTx 500 0 [Pay TokLs (10 * E)] UnDelegate; OTx 100 0 [] SetStateActive;
               OTx 500 (5 * E) [] AddRewards].
Lemma w_busy_reach : Reachable w_busy.
Proof. apply reach_run, w_ready_reach. Qed.

Definition st_eqb (a b : status) : bool :=
  match a, b with
  | SOk, SOk | SInvalid, SInvalid => true
  | SErr _, SErr _ => true
  | SCbFail _, SCbFail _ => true
  | _, _ => false
  end.
Lemma matters_b w o t :
  st_eqb (snd (step (tweaked t w) o)) (snd (step w o)) = false -> matters w o t.
Proof. intros H E. rewrite E in H. cbn [snd] in H. by destruct (snd (step w o)). Qed.

(** the setting, another value of it, and who tries the endpoint *)
Definition other_value (t : tweak) : tweak :=
  match t with
  | TwActive _ => TwActive false
  | TwFees _ => TwFees 10001
  | TwAcc _ => TwAcc SELF
  | TwMaxaddr _ => TwMaxaddr 1
  | TwMaxsel _ => TwMaxsel 1
  | TwUnbond _ => TwUnbond 3
  | TwScore _ => TwScore None
  | TwMigr _ => TwMigr None
  | TwMgrs _ => TwMgrs [102]
  | TwOwner _ => TwOwner 999
  | _ => t
  end.
Definition somebody (ep : endpoint) (t : tweak) : N :=
  match ep, t with
  | (Delegate | UnDelegate | Withdraw), _ => 500
  | (Migrate _ _ | MigratePending), _ => 1500
  | (AddManagers _ | RemoveManager _), _ => 100
  | UnDelegatePending _, TwMaxsel _ => 100
  | _, TwOwner _ => 100
  | _, _ => 101
  end.
Definition values (ep : endpoint) : N :=
  match ep with
  | Delegate => 50 * E | Whitelist _ _ _ _ _ _ => E | MigratePending => E
  | RegisterLsToken | RegisterUnstakeToken => 5 | _ => 0
  end.
Definition tokens (ep : endpoint) : list pay :=
  match ep with
  | UnDelegate => [Pay TokLs (20 * E)] | Withdraw => [Pay (TokUst 1) (2 * E)] | _ => []
  end.
Definition usual (ep : endpoint) : endpoint :=
  match ep with
  | DelegatePending _ => DelegatePending None
  | UnDelegatePending _ => UnDelegatePending None
  | WithdrawPending _ => WithdrawPending 1000
  | ClaimFees _ => ClaimFees true
  | Whitelist _ _ _ _ _ _ => Whitelist 1003 77 0 0 10 800
  | ChangeAdmin _ _ => ChangeAdmin 1000 79
  | ChangeParams _ _ _ _ _ _ => ChangeParams 1000 0 0 10 800 true
  | SetScoringConfig _ => SetScoringConfig scfg_default
  | SetAccumulator _ => SetAccumulator 201
  | SetFees _ => SetFees 300
  | SetMinimumRounds _ => SetMinimumRounds 3
  | SetMaxAddresses _ => SetMaxAddresses 30
  | SetMaxSelected _ => SetMaxSelected 3
  | SetUnbondPeriod _ => SetUnbondPeriod 3
  | AddManagers _ => AddManagers [103]
  | RemoveManager _ => RemoveManager 102
  | Migrate _ _ => Migrate E 501
  | SetMigrationSc _ => SetMigrationSc 1501
  | _ => ep
  end.

Lemma each_look_matters ep t :
  looks ep t = true ->
  exists w u e ps ep' t', Reachable w /\ name ep' = name ep /\ same_setting t t' = true
    /\ snd (step w (OTx u e ps ep')) = SOk /\ matters w (OTx u e ps ep') t'.
Proof.
  intros H.
  exists (match ep, t with
          | (RegisterLsToken | RegisterUnstakeToken), _ => w0
          | UnDelegatePending _, TwMaxsel _ => w_redeemed
          | _, _ => w_busy end),
    (somebody ep t), (values ep), (tokens ep), (usual ep), (other_value t).
  split; [destruct ep, t; 
    match goal with
    | |- Reachable w0 => exact w0_reach
    | |- Reachable w_redeemed => exact w_redeemed_reach
    | |- Reachable w_busy => exact w_busy_reach
    end|].
  split; [by destruct ep|]. split; [by destruct t|].
  destruct t, ep; try discriminate H; clear H;
    (split; [vm_compute; reflexivity|]);
    try (apply matters_b; vm_compute; reflexivity).
  - intros H. apply (f_equal (fun y => List.length (w_calls (fst y)))) in H. vm_compute in H. discriminate H.
  - intros H. apply (f_equal (fun y => List.length (w_calls (fst y)))) in H. vm_compute in H. discriminate H.
  - intros H. apply (f_equal (fun y => w_last (fst y))) in H. vm_compute in H. discriminate H.
  - intros H. apply (f_equal (fun y => c_mgrs (w_cfg (fst y)))) in H. vm_compute in H. discriminate H.
  - intros H. apply (f_equal (fun y => c_mgrs (w_cfg (fst y)))) in H. vm_compute in H. discriminate H.
Qed.
