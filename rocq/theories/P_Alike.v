(** P_Alike.v — property C109: all accounts are treated alike. *)
From Verif Require Import Scenario L_Alike.

(** C109 The contract does the same whatever the accounts are called: with the accounts
    renamed throughout, every action has the same outcome with the accounts renamed.
    So nobody has a power or a handicap that is not in the state: the owner, the managers,
    the administrators, the accumulator, the migration contract and the balances. *)
Theorem C109_alike : forall f, renaming f -> forall w o,
  step (ren f w) (ren_op f o) = (ren f (fst (step w o)), snd (step w o)).
Proof. exact step_alike. Qed.
Print Assumptions C109_alike.

(** The same for whole histories, *)
Theorem C109_histories : forall f, renaming f -> forall w os,
  run (ren f w) (map (ren_op f) os) = ren f (run w os)
  /\ statuses (ren f w) (map (ren_op f) os) = statuses w os.
Proof. exact run_alike. Qed.
Print Assumptions C109_histories.

(** from deployment on. *)
Theorem C109_reachable : forall f w, renaming f -> Reachable w -> Reachable (ren f w).
Proof. exact reachable_alike. Qed.
Print Assumptions C109_reachable.

(** Any two accounts of the same kind can change places. *)
Theorem C109_any_two : forall a b,
  ordinary a -> ordinary b -> is_smart_contract a = is_smart_contract b -> renaming (swap a b).
Proof. exact swap_renaming. Qed.
Print Assumptions C109_any_two.

(** One newcomer is as good as another: what one can do in a state the other can do in
    that same state, with the same outcome up to their names. *)
Theorem C109_newcomers : forall a b w o,
  is_smart_contract a = is_smart_contract b -> newcomer a w -> newcomer b w ->
  step w (ren_op (swap a b) o) = (ren (swap a b) (fst (step w o)), snd (step w o)).
Proof. exact newcomers_alike. Qed.
Print Assumptions C109_newcomers.

(** In the scenario user 500 and manager 100 change places, in the state and in the
    history; the stake, the rewards and the redemption are the same. *)
Example C109_case :
  let f := swap 500 100 in
  ordinary 500 /\ ordinary 100 /\ is_smart_contract 500 = is_smart_contract 100
  /\ w_owner (ren f w0) = 500 /\ map f [500; 100; 77] = [100; 500; 77]
  /\ statuses (ren f w0) (map (ren_op f) unbonding_ops) = statuses w0 unbonding_ops
  /\ ls_balance 100 (run (ren f w0) (map (ren_op f) unbonding_ops)) = ls_balance 500 (run w0 unbonding_ops)
  /\ ls_balance 500 (run w0 unbonding_ops) = 60 * E.
Proof. vm_compute. repeat split; congruence. Qed.

(** Accounts 501 and 502 come to the running contract: each can deposit 7 EGLD and gets
    the same LS tokens for it. *)
Example C109_newcomers_case :
  let w := run w0 (setup_ops ++ deposit_ops ++ stake_ops ++ reward_ops) in
  let o := OTx 501 (7 * E) [] Delegate in
  newcomer 501 w /\ newcomer 502 w /\ is_smart_contract 501 = is_smart_contract 502
  /\ ren_op (swap 501 502) o = OTx 502 (7 * E) [] Delegate
  /\ snd (step w o) = SOk /\ 0 < ls_balance 501 (fst (step w o)) < 7 * E
  /\ ls_balance 502 (fst (step w (OTx 502 (7 * E) [] Delegate))) = ls_balance 501 (fst (step w o)).
Proof.
  intros w o. split; [apply newcomer_by_test; vm_compute; reflexivity|].
  split; [apply newcomer_by_test; vm_compute; reflexivity|]. vm_compute. repeat split.
Qed.
