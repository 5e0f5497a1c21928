(** P_Last.v — properties C106 to C108: settings and records are what was last said
    about them, stake goes to providers that are vouched for, and the events tell the
    whole story of the pool. *)
From Verif Require Import Scenario L_Last.

(** C106 Every setting is what the owner of the moment (for the scoring parameters: the
    owner or a manager of the moment) said last, or what it was, *)
Theorem C106_settings : forall w os,
  let v := run w os in
  c_active (w_cfg v) = default (c_active (w_cfg w)) (last_word said_active w os)
  /\ c_fees (w_cfg v) = default (c_fees (w_cfg w)) (last_word said_fees w os)
  /\ c_acc (w_cfg v) = default (c_acc (w_cfg w)) (last_word said_accumulator w os)
  /\ c_minr (w_cfg v) = default (c_minr (w_cfg w)) (last_word said_rounds w os)
  /\ c_maxaddr (w_cfg v) = default (c_maxaddr (w_cfg w)) (last_word said_max_listed w os)
  /\ c_maxsel (w_cfg v) = default (c_maxsel (w_cfg w)) (last_word said_max_selected w os)
  /\ c_unbond (w_cfg v) = default (c_unbond (w_cfg w)) (last_word said_period w os)
  /\ c_migr (w_cfg v) = default (c_migr (w_cfg w)) (last_word said_migration w os)
  /\ c_score (w_cfg v) = default (c_score (w_cfg w)) (last_word said_scoring w os)
  /\ w_owner v = default (w_owner w) (last_word said_owner w os)
  /\ c_rpe (w_cfg v) = c_rpe (w_cfg w).
Proof. exact settings_last. Qed.
Print Assumptions C106_settings.

(** somebody is a manager if what the owner said last about them is that they are, *)
Theorem C106_managers : forall m w os, Reachable w ->
  (m ∈ c_mgrs (w_cfg (run w os))
   <-> match last_word (said_manager m) w os with Some b => b = true | None => m ∈ c_mgrs (w_cfg w) end).
Proof. exact managers_last. Qed.
Print Assumptions C106_managers.

(** and the administrator, the parameters and the eligibility of a provider are what was
    last said about them by somebody with a say. *)
Theorem C106_records : forall w os c,
  let v := run w os in
  (p_admin <$> w_pv v !! c) = default (p_admin <$> w_pv w !! c) (last_word (entry c (said_admin c)) w os)
  /\ (params_of <$> w_pv v !! c) = default (params_of <$> w_pv w !! c) (last_word (entry c (said_params c)) w os)
  /\ (p_elig <$> w_pv v !! c) = default (p_elig <$> w_pv w !! c) (last_word (entry c (said_eligible c)) w os).
Proof. exact records_last. Qed.
Print Assumptions C106_records.

(** Fees are set three times, once by a stranger; the owner changes in between; managers
    come and go; the administrator of provider 1000 changes its parameters. *)
Definition C106_ops : list op :=
  [OTx 100 0 [] (SetFees 700); OTx 500 0 [] (SetFees 9); OTx 100 0 [] (AddManagers [7; 8]);
   OTx 8 0 [] (ChangeAdmin 1000 79); OTx 77 0 [] (ChangeParams 1000 1 2 3 4 true);
   OTx 79 0 [] (ChangeParams 1000 5 6 7 8 false); OTx 100 0 [] (RemoveManager 7); OOwner 101;
   OTx 100 0 [] (SetFees 10); OTx 101 0 [] (SetFees 300)].

Example C106_case :
  let v := run w_staked C106_ops in
  statuses w_staked C106_ops
  = [SOk; SErr EOnlyOwner; SOk; SOk; SErr EOnlyDelegationAdmin; SOk; SOk; SOk; SErr EOnlyOwner; SOk]
  /\ last_word said_fees w_staked C106_ops = Some 300 /\ c_fees (w_cfg v) = 300
  /\ last_word (said_manager 7) w_staked C106_ops = Some false
  /\ last_word (said_manager 8) w_staked C106_ops = Some true /\ c_mgrs (w_cfg v) = [8]
  /\ last_word (entry 1000 (said_params 1000)) w_staked C106_ops = Some (Some (5, 6, 7, 8))
  /\ last_word (entry 1000 (said_admin 1000)) w_staked C106_ops = Some (Some 79)
  /\ (params_of <$> w_pv v !! 1000) = Some (5, 6, 7, 8).
Proof. vm_compute. repeat split. Qed.

(** C107 Stake is sent only to a provider that is vouched for: what was last said about
    it is that it may be given stake, *)
Theorem C107_vouched : forall w os o c a,
  In (XCall (KDeleg c a)) (w_log (run w (os ++ [o]))) ->
  default (p_elig <$> w_pv w !! c) (last_word (entry c (said_eligible c)) w os) = Some true.
Proof. exact stake_last. Qed.
Print Assumptions C107_vouched.

(** so a provider that has rejected stake, or that was taken out, gets nothing until
    somebody with a say puts it back. *)
Theorem C107_out_until_put_back : forall w os o c a,
  (p_elig <$> w_pv w !! c) <> Some true ->
  along (fun v x => said_eligible c v x <> Some true) w os ->
  ~ In (XCall (KDeleg c a)) (w_log (run w (os ++ [o]))).
Proof. exact stake_never. Qed.
Print Assumptions C107_out_until_put_back.

(** Both providers are given stake. Provider 1000 rejects: from then on all goes to the
    other one, until the owner puts 1000 back. *)
Definition C107_ops : list op :=
  [OTx 100 0 [] (DelegatePending None); OExec 0 None; OExec 0 (Some 0); OCb 0; OCb 0].

Example C107_case :
  let w := run w_deposit C107_ops in let put := OTx 100 0 [] (ChangeParams 1000 0 0 10 800 true) in
  let go := OTx 100 0 [] (DelegatePending None) in
  map (fun k => match k with KDeleg c _ => c | _ => 0 end) (w_calls (fst (step w_deposit go))) = [1000; 1001]
  /\ last_word (entry 1000 (said_eligible 1000)) w_deposit C107_ops = Some (Some false)
  /\ (p_elig <$> w_pv w !! 1000) = Some false
  /\ map (fun k => match k with KDeleg c _ => c | _ => 0 end) (w_calls (fst (step w go))) = [1001]
  /\ map (fun k => match k with KDeleg c _ => c | _ => 0 end) (w_calls (run w [put; go])) = [1000; 1001].
Proof. vm_compute. repeat split. Qed.

(** C108 Somebody who knows the pool at one point, and from there sees the events and the
    deposits of fees, knows it for ever. *)
Theorem C108_events_tell_all : forall w os, watched (w_pool w) w os = w_pool (run w os).
Proof. exact watched_run. Qed.
Print Assumptions C108_events_tell_all.

Example C108_case :
  watched (Pool 0 0 0 0 0 0 0) w0 (unbonding_ops ++ [OTx 500 0 [] (ClaimFees true)])
  = Pool (62 * E) 63167058823529411765 0 0 0 0 38832941176470588235
  /\ fees_reserve (run w0 unbonding_ops) = 80000000000000000.
Proof. vm_compute. repeat split. Qed.
