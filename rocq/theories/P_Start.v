(** P_Start.v — property C99: deployment, and the way to the first deposit. *)
From Verif Require Import Scenario L_Start.

(** C99. Whatever else is passed, a contract can be deployed exactly when at least one
    provider may be selected and at least one may be listed. (The bounds are those of the
    argument types.) *)
Theorem C99_deployed_when : forall owner acc fees rpe minr maxsel maxaddr unbond epoch,
  owner <> SELF -> rpe < 2 ^ 64 -> minr < 2 ^ 64 -> maxaddr < 2 ^ 32 -> unbond < 2 ^ 64 -> epoch < 2 ^ 64 ->
  (exists w, deploy owner acc fees rpe minr maxsel maxaddr unbond epoch = Ok w) <-> 1 <= maxsel /\ 1 <= maxaddr.
Proof. exact deploy_ok. Qed.
Print Assumptions C99_deployed_when.

(** It then starts paused, with the given configuration, without managers, migration
    contract, scoring configuration, tokens, EGLD, provider records or calls. *)
Theorem C99_deployed_state : forall owner acc fees rpe minr maxsel maxaddr unbond epoch w,
  deploy owner acc fees rpe minr maxsel maxaddr unbond epoch = Ok w ->
  let g := w_cfg w in
  w_owner w = owner /\ c_acc g = acc /\ c_fees g = fees /\ c_rpe g = rpe /\ c_minr g = minr
  /\ c_maxsel g = maxsel /\ c_maxaddr g = maxaddr /\ c_unbond g = unbond /\ w_epoch w = epoch
  /\ c_active g = false /\ c_mgrs g = [] /\ c_migr g = None /\ c_score g = None
  /\ c_lstok g = TNotSet /\ c_usttok g = TNotSet
  /\ contract_egld w = 0 /\ (forall c, w_pv w !! c = None) /\ unanswered w = [].
Proof. exact deployed_state. Qed.
Print Assumptions C99_deployed_state.

(** Until the LS token is issued, whatever happens, nothing is booked, nobody has a token and
    no provider is listed. *)
Theorem C99_nothing_before : forall w,
  Reachable w -> c_lstok (w_cfg w) <> TIssued ->
  ls_supply w = 0 /\ virtual_reserve w = 0 /\ pending_egld w = 0 /\ unstake_queue w = 0 /\ unbonding w = 0
  /\ total_withdrawn w = 0 /\ fees_reserve w = 0
  /\ w_dl w = [] /\ w_ul w = [] /\ (forall u, ls_balance u w = 0) /\ (forall n u, ust_of n u w = 0).
Proof. exact nothing_before. Qed.
Print Assumptions C99_nothing_before.

(** Whatever was done before, as long as no token is issued or being issued the owner can
    issue both and activate the contract, and then anybody can make the first deposit of
    1 EGLD or more, at one LS token per EGLD. *)
Theorem C99_first_deposit : forall w a b,
  Reachable w -> w_owner w <> SELF -> c_lstok (w_cfg w) = TNotSet -> c_usttok (w_cfg w) = TNotSet ->
  let os := go_live (w_owner w) a b (length (w_calls w)) (length (w_res w)) in
  let v := run w os in
  Forall (eq SOk) (statuses w os)
  /\ c_active (w_cfg v) = true /\ c_lstok (w_cfg v) = TIssued /\ c_usttok (w_cfg v) = TIssued
  /\ contract_egld v = contract_egld w
  /\ forall u eg, u <> SELF -> ONE_EGLD <= eg ->
     let o := OTx u eg [] Delegate in let v' := fst (step v o) in
     snd (step v o) = SOk /\ ls_balance u v' = eg /\ ls_supply v' = eg /\ virtual_reserve v' = eg /\ pending_egld v' = eg.
Proof. exact first_deposit. Qed.
Print Assumptions C99_first_deposit.

(** Case: limits of 1 and 1 are enough. The owner has already whitelisted a provider whose
    answer is still due, and a first attempt to issue the LS token was refused. *)
Definition early_ops : list op :=
  [OTx 100 (2 * E) [] (Whitelist 1000 77 0 0 10 800); OTx 100 5 [] RegisterLsToken; OExec 1 None; OCb 0;
   ODonate 3].
Definition w_early : world := run w0 early_ops.
Example C99_case :
  (exists w, deploy 100 200 0 14400 10 1 1 10 5 = Ok w)
  /\ ~ (exists w, deploy 100 200 0 14400 10 1 0 10 5 = Ok w)
  /\ Reachable w_early /\ statuses w0 early_ops = [SOk; SOk; SOk; SOk; SOk]
  /\ w_owner w_early = 100 /\ c_lstok (w_cfg w_early) = TNotSet /\ c_usttok (w_cfg w_early) = TNotSet
  /\ length (w_calls w_early) = 1%nat /\ contract_egld w_early = 3
  /\ let v := run w_early (go_live 100 5 7 1 0) in
     ls_balance 500 (fst (step v (OTx 500 (9 * E) [] Delegate))) = 9 * E.
Proof.
  split; [eexists; vm_compute; reflexivity|]. split; [intros [w H]; vm_compute in H; discriminate H|].
  split; [apply reach_run, w0_reach|]. vm_compute. repeat split.
Qed.
