(** P_View.v — property C96: what the views about providers report. *)
From Verif Require Import Scenario L_View.

(** C96. getDelegationContractStakedAmount and getDelegationContractUnstakedAmount
    answer for every listed provider. *)
Theorem C96_views_answer : forall w c,
  Reachable w -> In c (w_dl w) -> exists s u, view_staked c w = Ok s /\ view_unstaked c w = Ok u.
Proof. exact listed_views_answer. Qed.
Print Assumptions C96_views_answer.

(** Asked about every listed provider, they add up to all stake on the books and to the
    unbonding pot: no record outside the list holds anything. *)
Theorem C96_views_add_up : forall w ss us,
  Reachable w ->
  Forall2 (fun c s => view_staked c w = Ok s) (w_dl w) ss ->
  Forall2 (fun c u => view_unstaked c w = Ok u) (w_dl w) us ->
  sumN ss = staked_total w /\ sumN us = unbonding w.
Proof. exact views_sum. Qed.
Print Assumptions C96_views_add_up.

(** When no call is unanswered the virtual reserve can be recomputed from the views
    (up to migrations and replies lost to aborted callbacks). *)
Theorem C96_reserve_from_views : forall w os ss,
  Deployed w ->
  let v := run w os in
  Forall2 (fun c s => view_staked c v = Ok s) (w_dl v) ss -> unanswered v = [] ->
  virtual_reserve v + unstake_queue v + history_sum migrated_pending w os + tally (lost (by_call undel_any)) w os
  = pending_egld v + sumN ss + history_sum migrated_stake w os + tally (lost (by_call deleg_any)) w os.
Proof. exact views_reserve. Qed.
Print Assumptions C96_reserve_from_views.

(** In orderly histories they are what the provider really holds once its replies have arrived. *)
Theorem C96_views_true : forall w os c,
  Deployed w -> along orderly w os ->
  let v := run w os in
  In c (w_dl v) -> (forall x, In x (w_res v) -> provider_of (fst x) <> Some c) ->
  view_staked c v = Ok (fst (live_of v c)) /\ view_unstaked c v = Ok (snd (live_of v c)).
Proof. exact listed_views_true. Qed.
Print Assumptions C96_views_true.

(** Case: the standard history after both un-delegations were answered. *)
Example C96_case :
  let v := run w0 unbonding_ops in
  Deployed w0 /\ along orderly w0 unbonding_ops /\ Reachable v
  /\ w_dl v = [1000; 1001] /\ w_res v = [] /\ unanswered v = []
  /\ Forall2 (fun c s => view_staked c v = Ok s) (w_dl v) [0; 63167058823529411765]
  /\ Forall2 (fun c u => view_unstaked c v = Ok u) (w_dl v) [25038217711350872307; 13794723465119715928]
  /\ virtual_reserve v = 63167058823529411765 /\ view_staked 1002 v <> Ok 0.
Proof.
  cbv zeta. split; [exact w0_is_deployed|]. split; [apply orderly_along; vm_compute; reflexivity|].
  split; [apply reach_run_, w0_reach|].
  split; [vm_compute; reflexivity|]. split; [vm_compute; reflexivity|]. split; [vm_compute; reflexivity|].
  split; [vm_compute; repeat constructor|]. split; [vm_compute; repeat constructor|].
  split; [vm_compute; reflexivity|]. vm_compute. discriminate.
Qed.
