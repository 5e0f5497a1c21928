(** P_Script.v — property C124: the operators' script. *)
From Coq Require Import String.
From Verif Require Import L_Script L_Abi L_Track Scenario P_Abi P_Proxy.
Open Scope N_scope.

(** C124. Deploying with the script passes every setting to the parameter it is meant for;
    with the values of the script it works. *)
Theorem C124_deployment : forall v owner epoch, settings_fit v ->
  deploy_bytes owner epoch (script_init v)
  = deploy owner (v_accumulator v) (v_fees v) (v_rounds v) (v_min_rounds v) (v_max_selected v) (v_max_addresses v)
      (v_unbond v) epoch.
Proof. exact deployed_by_script. Qed.
Print Assumptions C124_deployment.
Example C124_deployment_case : settings_fit devnet
  /\ deploy_bytes 100 5 (script_init devnet) = Ok w_devnet /\ c_fees (w_cfg w_devnet) = 400
  /\ c_rpe (w_cfg w_devnet) = 2400 /\ c_minr (w_cfg w_devnet) = 400 /\ c_maxsel (w_cfg w_devnet) = 20
  /\ c_maxaddr (w_cfg w_devnet) = 100 /\ c_unbond (w_cfg w_devnet) = 1.
Proof. split; [exact devnet_fit|]. vm_compute. repeat split. Qed.

(** Full claim: every command of the script asks the contract for what it is meant to do.
    Refuted: with the values of the script the owner could set managers, the migration
    contract and both limits, but the four commands for it name functions that the contract
    does not have. *)
Theorem C124_commands_refuted : exists v w caller, settings_fit v /\ Reachable w /\
  forall c, misnamed c ->
    snd (step w (OTx caller (script_value c) (script_pays v c) (serves v c))) = SOk
    /\ forall ok, snd (script_step v c caller ok w) = SErr EDecode.
Proof. exact commands_wrong. Qed.
Print Assumptions C124_commands_refuted.
Example C124_commands_refuted_case :
  snd (step w_devnet (OTx 100 0 [] (serves devnet CAddMigrationScAddress))) = SOk
  /\ snd (script_step devnet CAddMigrationScAddress 100 true w_devnet) = SErr EDecode
  /\ snd (step w_devnet (OTx 100 0 [] (serves devnet CUpdateMaxSelectedProviders))) = SOk
  /\ snd (script_step devnet CUpdateMaxSelectedProviders 100 true w_devnet) = SErr EDecode.
Proof. vm_compute. repeat split. Qed.

(** Every other command asks for exactly what it is meant to do, whatever the settings, the
    state and the caller. Missing: the four commands above. *)
Theorem C124_commands_partial : forall v c, settings_fit v -> ~ misnamed c ->
  forall w caller ok, script_step v c caller ok w = step w (OTx caller (script_value c) (script_pays v c) (serves v c)).
Proof. exact commands_work. Qed.
Print Assumptions C124_commands_partial.
Example C124_commands_partial_case : settings_fit devnet /\ ~ misnamed CSetUnbondPeriod /\ ~ misnamed CSetMinimumRounds
  /\ snd (script_step devnet CSetUnbondPeriod 100 true w0) = SOk
  /\ c_unbond (w_cfg (fst (script_step devnet CSetUnbondPeriod 100 true w0))) = 1
  /\ c_minr (w_cfg (fst (script_step devnet CSetMinimumRounds 100 true w_devnet))) = 200.
Proof. split; [exact devnet_fit|]. split; [exact id|]. split; [exact id|]. vm_compute. repeat split. Qed.

(** The four do nothing, in any state, with any settings, whoever runs them. *)
Theorem C124_misnamed : forall v c, misnamed c ->
  forall w caller ok, script_step v c caller ok w = (set_log [] w, SErr EDecode).
Proof. exact misnamed_refused. Qed.
Print Assumptions C124_misnamed.
Example C124_misnamed_case : misnamed CSetManagers
  /\ snd (step w_devnet (OTx 100 0 [] (serves devnet CSetManagers))) = SOk
  /\ length (c_mgrs (w_cfg (fst (step w_devnet (OTx 100 0 [] (serves devnet CSetManagers)))))) = 3%nat
  /\ c_mgrs (w_cfg (fst (script_step devnet CSetManagers 100 true w_devnet))) = [].
Proof. split; [exact I|]. vm_compute. repeat split. Qed.

(** The command that is to whitelist a provider calls the right function but sends no EGLD:
    it is refused in every state, with any settings, whoever runs it. *)
Theorem C124_no_whitelisting : forall v w caller ok, settings_fit v ->
  snd (script_step v CWhitelist caller ok w) <> SOk /\ fst (script_step v CWhitelist caller ok w) = set_log [] w.
Proof. exact (fun v w caller ok => whitelist_pays v w caller ok). Qed.
Print Assumptions C124_no_whitelisting.
Example C124_no_whitelisting_case : settings_fit devnet
  /\ snd (script_step devnet CWhitelist 100 true w_devnet) = SErr EMinEgldToDelegate
  /\ snd (step w_devnet (OTx 100 E [] (serves devnet CWhitelist))) = SOk.
Proof. split; [exact devnet_fit|]. vm_compute. repeat split. Qed.

(** Three of the six questions of the script are never answered, whatever is stored; *)
Theorem C124_unanswered : forall q s, misnamed_question q -> script_query q s = None.
Proof. exact misnamed_unanswered. Qed.
Print Assumptions C124_unanswered.
Example C124_unanswered_case : misnamed_question AskCanExecutePendingTasks.
Proof. exact I. Qed.

(** the others are answered with the truth about the state. *)
Theorem C124_answered : forall q s w, shows s w -> ~ misnamed_question q -> script_query q s = true_answer q w.
Proof. exact questions_answered. Qed.
Print Assumptions C124_answered.
Example C124_answered_case : exists s, shows s (run w0 byte_ops)
  /\ ~ misnamed_question AskExchangeRate /\ ~ misnamed_question AskEgldPositionValue
  /\ exists a, script_query AskExchangeRate s = Some [a] /\ true_answer AskExchangeRate (run w0 byte_ops) = Some [a].
Proof.
  destruct byte_store as [s Hr]. apply views_show in Hr. exists s. split; [exact Hr|]. split; [exact id|]. split; [exact id|].
  assert (exists a, true_answer AskExchangeRate (run w0 byte_ops) = Some [a]) as [a Ha] by (eexists; vm_compute; reflexivity).
  exists a. split; [|exact Ha]. by rewrite (questions_answered AskExchangeRate _ _ Hr id).
Qed.

(** Whoever runs commands of the script, with whatever settings and in whatever order, and
    whatever happens outside: the contract never has a provider, a manager, a migration
    contract or a scoring configuration, calls nobody but to issue its tokens, and neither
    delegatePending nor unDelegatePending can be executed. *)
Theorem C124_never_staked : forall w ds, Deployed w -> Forall doing_ok ds -> let v := doing_run w ds in
  (forall c, w_pv v !! c = None) /\ w_dl v = [] /\ w_ul v = []
  /\ c_mgrs (w_cfg v) = [] /\ c_migr (w_cfg v) = None /\ c_score (w_cfg v) = None
  /\ Forall (fun k => exists ls who a, k = KIssue ls who a) (unanswered v)
  /\ forall caller egld pays x,
       snd (step v (OTx caller egld pays (DelegatePending x))) <> SOk
       /\ snd (step v (OTx caller egld pays (UnDelegatePending x))) <> SOk.
Proof. exact script_idle. Qed.
Print Assumptions C124_never_staked.

(** It is enough, however, to take deposits: after deployment the owner issues both tokens
    and activates the contract with the script, and then anybody can deposit 100 EGLD with it and, if it
    names the right token, redeem 0.3 at once. *)
Theorem C124_start : forall v w ok, settings_fit v -> Deployed w ->
  let ds := script_start v (w_owner w) ok in let u := doing_run w ds in
  Forall (eq SOk) (doing_statuses w ds)
  /\ c_active (w_cfg u) = true /\ c_lstok (w_cfg u) = TIssued /\ c_usttok (w_cfg u) = TIssued
  /\ forall who, who <> SELF ->
     let o := script_step v CDelegate who ok u in
     snd o = SOk /\ ls_balance who (fst o) = 100 * ONE_EGLD /\ pending_egld (fst o) = 100 * ONE_EGLD
     /\ (v_token v = TokLs -> let o' := script_step v CUnDelegate who ok (fst o) in
          snd o' = SOk /\ 10 * pending_egld (fst o') = 997 * ONE_EGLD /\ 10 * ls_supply (fst o') = 997 * ONE_EGLD).
Proof. exact script_starts. Qed.
Print Assumptions C124_start.

(** Case: the whole script, in its order. The deposit stays in the contract; part of it can
    be redeemed at once. *)
Definition whole_script : list doing :=
  let d c := DCommand devnet c 100 true in
  script_start devnet 100 true
  ++ map d [CWhitelist; CChangeParams; CDelegate; CUnDelegate; CDelegatePending; CUnDelegatePending; CSetMinimumRounds;
            CUpdateMaxDelegationAddresses; CUpdateMaxSelectedProviders; CSetUnbondPeriod; CSetManagers; CAddMigrationScAddress].
Example C124_start_case : settings_fit devnet /\ Deployed w_devnet /\ Forall doing_ok whole_script
  /\ doing_statuses w_devnet whole_script
     = repeat SOk 7 ++ [SErr EMinEgldToDelegate; SErr EDecode; SOk; SOk; SErr ENoDelegationContracts;
         SErr EInsufficientPendingEgld; SOk; SErr EDecode; SErr EDecode; SOk; SErr EDecode; SErr EDecode]
  /\ let v := doing_run w_devnet whole_script in
     pending_egld v = 99 * E + 700 * 10 ^ 15 /\ contract_egld v = 99 * E + 700 * 10 ^ 15.
Proof.
  split; [exact devnet_fit|]. split; [exact devnet_deployed|]. split.
  { repeat (apply List.Forall_cons; [first [exact devnet_fit|exact I]|]). apply List.Forall_nil. }
  vm_compute. repeat split.
Qed.
