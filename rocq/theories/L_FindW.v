(** L_FindW.v — witnesses of the refuted properties. *)
From Verif Require Export L_Find Scenario.

Definition okget (x : res world) : world := match x with Ok v => v | Er _ => w0 end.
Definition okb (x : res world) : bool := match x with Ok _ => true | Er _ => false end.
Lemma okget_ok x : okb x = true -> x = Ok (okget x).
Proof. by destruct x. Qed.

(** C46 *)
Definition nested_ops : list op := [OTx 200 (10 * E) [] Delegate].
Definition w_nested : world := okget (claim_fees_with (fun v => Ok (run v nested_ops)) (set_log [] w_rewarded)).

Lemma reentrance_breaks :
  exists w ops w', Reachable w
    /\ Forall (fun o => initiator o = Some (c_acc (w_cfg w))) ops
    /\ claim_fees_with (fun v => Ok (run v ops)) (set_log [] w) = Ok w'
    /\ ls_supply w' <> ls_in_existence w'.
Proof.
  exists w_rewarded, nested_ops, w_nested. split; [exact w_rewarded_reach|]. split; [by repeat constructor|].
  split; [apply okget_ok; vm_compute; reflexivity|]. vm_compute. discriminate.
Qed.

(** C47 *)
Definition w_turn : world := run w_deposit [OTx 100 0 [] (DelegatePending (Some E))].
Lemma admin_blocks :
  exists w u c p total cap nodes apy elig,
    let w' := fst (step w (OTx u 0 [] (ChangeParams c total cap nodes apy elig))) in
    Reachable w /\ w_pv w !! c = Some p /\ p_admin p = u /\ u <> w_owner w /\ u ∉ c_mgrs (w_cfg w)
    /\ (exists v, snd (step w (OTx v 0 [] (DelegatePending None))) = SOk)
    /\ snd (step w (OTx u 0 [] (ChangeParams c total cap nodes apy elig))) = SOk
    /\ forall v eg pays o, snd (step w' (OTx v eg pays (DelegatePending o))) <> SOk.
Proof.
  exists w_turn, 78, 1001, (Prov 78 (3 * E) (500 * E) 20 900 E 0 true 0 0), 0, (E / 2), 20, 900, true. cbv zeta.
  split; [apply reach_run, w_deposit_reach|]. split; [vm_compute; reflexivity|]. split; [reflexivity|].
  split; [vm_compute; discriminate|]. split; [vm_compute; intros H; inversion H|].
  split; [exists 100; vm_compute; reflexivity|]. split; [vm_compute; reflexivity|]. intros v eg pays o.
  apply (blocked_first _ v eg pays o 1001 [1000] (Prov 78 0 (E / 2) 20 900 E 0 true 0 0)); vm_compute; (reflexivity || discriminate).
Qed.

(** C48: four whitelistings under way at once, limit 1 *)
Definition w0_one : world :=
  World (Cfg false 400 200 14400 10 1 20 10 None None [] TNotSet TNotSet)
        (Pool 0 0 0 0 0 0 0) [] [] ∅ ∅ 0 ∅ ∅ ∅ 0 5 100 [] [] ∅ [].
Definition rush_ops : list op :=
  firstn 8 setup_ops ++ map (fun c => OTx 100 E [] (Whitelist c 77 0 0 10 800)) [1000; 1001; 1002; 1003]
  ++ [OExec 0 (Some 0); OExec 0 (Some 0); OExec 0 (Some 0); OExec 0 (Some 0); OCb 0; OCb 0; OCb 0; OCb 0].
Lemma w0_one_deployed : Deployed w0_one.
Proof. exists 100, 200, 400, 14400, 10, 20, 1, 10, 5. vm_compute. reflexivity. Qed.

Lemma limit_exceeded :
  exists w os, Deployed w /\ Forall (eq SOk) (statuses w os)
    /\ Forall (fun o => match o with OTx _ _ _ (SetMaxAddresses _) => False | _ => True end) os
    /\ c_maxaddr (w_cfg w) = 1 /\ N.of_nat (length (w_dl (run w os))) = 4.
Proof.
  exists w0_one, rush_ops. split; [exact w0_one_deployed|]. split; [apply all_ok; vm_compute; reflexivity|].
  split; [by repeat constructor|]. vm_compute. split; reflexivity.
Qed.

(** C49 *)
Definition w_tok : world := run w0 (firstn 8 setup_ops).
Lemma w_tok_reach : Reachable w_tok. Proof. apply reach_run, w0_reach. Qed.
Lemma locked_out :
  exists w u a, let w' := fst (step w (OTx u a [] AddRewards)) in
    Reachable w /\ u <> w_owner w /\ u ∉ c_mgrs (w_cfg w) /\ a = 1
    /\ (forall v b, v <> SELF -> ONE_EGLD <= b -> snd (step w (OTx v b [] Delegate)) = SOk)
    /\ snd (step w (OTx u a [] AddRewards)) = SOk
    /\ forall os v b pays, ls_supply (run w' os) = 0 /\ snd (step (run w' os) (OTx v b pays Delegate)) <> SOk.
Proof.
  exists w_tok, 600, 1. cbv zeta. split; [exact w_tok_reach|]. split; [vm_compute; discriminate|].
  split; [vm_compute; intros H; inversion H|]. split; [reflexivity|]. split.
  { intros v b Hv Hb. apply (delegate_full w_tok v b b); [vm_compute; reflexivity|exact Hv|exact Hb|].
    assert (minted b (w_pool w_tok) = b) as Em by reflexivity. rewrite <- Em at 2. apply view_egld_value_ok; [vm_compute; reflexivity|].
    rewrite Em. pose proof MIN_pos. change ONE_EGLD with MIN_EGLD in Hb. lia. }
  split; [vm_compute; reflexivity|]. intros os v b pays. apply stuck_forever; vm_compute; reflexivity.
Qed.

(** C50 *)
Definition scfg_wrapped : scfg :=
  Scfg (k_min_nodes scfg_default) (k_max_nodes scfg_default) (k_min_apy scfg_default) (k_max_apy scfg_default)
       (2 ^ 64 - 1) 100 1 (k_max_score scfg_default) (k_exp scfg_default) (k_apy_mul scfg_default).
Lemma wrapped_weights :
  exists w u s, Reachable w /\ k_stake_w s < 2 ^ 64 /\ k_apy_w s < 2 ^ 64 /\ k_nodes_w s < 2 ^ 64
    /\ snd (step w (OTx u 0 [] (SetScoringConfig s))) = SOk
    /\ k_stake_w s + k_apy_w s + k_nodes_w s <> 100.
Proof.
  exists w_staked, 100, scfg_wrapped. split; [exact w_staked_reach|]. vm_compute. repeat split; discriminate.
Qed.

(** C51 *)
Definition disorder_ops : list op :=
  [OTx 100 0 [] (DelegatePending None); OExec 0 (Some 0); OExec 0 (Some 0); OTx 500 0 [Pay TokLs (50 * E)] UnDelegate;
   OTx 100 0 [] (UnDelegatePending None); OExec 0 (Some 0); OExec 0 (Some 0); OCb 3; OCb 2; OCb 1; OCb 0].
Lemma disorder :
  exists w os c, Reachable w /\ Forall (fun s => s = SOk \/ cb_failed s) (statuses w os)
    /\ Exists cb_failed (statuses w os)
    /\ unanswered (run w os) = []
    /\ 0 < snd (live_of (run w os) c) /\ snd (recorded (run w os) c) = 0 /\ unbonding (run w os) = 0.
Proof.
  exists w_deposit, disorder_ops, 1000. split; [exact w_deposit_reach|].
  assert (statuses w_deposit disorder_ops = [SOk; SOk; SOk; SOk; SOk; SOk; SOk; SCbFail EUnderflow; SCbFail EUnderflow; SOk; SOk])
    as -> by (vm_compute; reflexivity).
  split; [repeat constructor; (by left) || (by right)|].
  split; [do 7 apply Exists_cons_tl; by apply Exists_cons_hd|]. vm_compute. repeat split; reflexivity.
Qed.

(** C52 *)
Definition fee_ops : list op := [OTx 100 0 [] ClaimRewards; OExec 0 (Some (2 * E))].
Lemma fee_too_high :
  exists w x os i, let w1 := fst (step w (OTx (w_owner w) 0 [] (SetFees x))) in
    Reachable w /\ snd (step w (OTx (w_owner w) 0 [] (SetFees x))) = SOk
    /\ (exists l v, nth_error (w_res (run w1 os)) i = Some (KClaim l, RDone v) /\ 0 < v)
    /\ cb_failed (snd (step (run w1 os) (OCb i)))
    /\ 0 < unaccounted (fst (step (run w1 os) (OCb i))) /\ unaccounted (run w1 os) = 0.
Proof.
  exists w_staked, 20000, fee_ops, 0%nat. cbv zeta. split; [exact w_staked_reach|]. split; [vm_compute; reflexivity|].
  split; [exists [1000; 1001], (2 * E); vm_compute; split; reflexivity|]. vm_compute. repeat split; reflexivity.
Qed.

(** C53 *)
Lemma withdraw_swallows :
  exists w u a, Reachable w /\ snd (step w (OTx u a [] Withdraw)) = SOk /\ 0 < a
    /\ egld_sent u (fst (step w (OTx u a [] Withdraw))) = 0
    /\ w_pool (fst (step w (OTx u a [] Withdraw))) = w_pool w
    /\ unaccounted (fst (step w (OTx u a [] Withdraw))) = unaccounted w + a.
Proof.
  exists w_staked, 500, (5 * E). split; [exact w_staked_reach|]. vm_compute. repeat split; reflexivity.
Qed.

(** C54 *)
Lemma small_queue w u eg pays o : unstake_queue w < ONE_EGLD -> snd (step w (OTx u eg pays (UnDelegatePending o))) <> SOk.
Proof.
  intros H Hs. did_of w (OTx u eg pays (UnDelegatePending o)) Hs. change ONE_EGLD with MIN_EGLD in H.
  match goal with B : batch_amount _ _ = _ |- _ => apply batch_amount_inv in B as (Hmin & _ & _) end.
  unfold unstake_queue in H. subst c. cbn in *. lia.
Qed.
Definition leftover_ops : list op :=
  [OTx 100 0 [] (SetMaxSelected 1); OTx 500 0 [Pay TokLs 25538217711350872307] UnDelegate;
   OTx 100 0 [] (UnDelegatePending None); OExec 0 (Some 0); OCb 0].
Lemma stuck_queue :
  exists w u c p, ReachableClean w /\ operator u w /\ unanswered w = [] /\ 0 < unstake_queue w
    /\ c ∈ w_ul w /\ w_pv w !! c = Some p /\ unstake_queue w + ONE_EGLD <= p_staked p
    /\ (exists s, c_score (w_cfg w) = Some s /\ distinct_bounds s)
    /\ forall v eg pays o, snd (step w (OTx v eg pays (UnDelegatePending o))) <> SOk.
Proof.
  exists (run w_staked leftover_ops), 100, 1001.
  destruct (w_pv (run w_staked leftover_ops) !! 1001) as [p|] eqn:Ep; [|vm_compute in Ep; discriminate]. exists p.
  split. { apply (clean_run w0 (setup_ops ++ deposit_ops ++ stake_ops ++ leftover_ops)); [vm_compute; reflexivity|].
    exact (clean_deploy _ _ _ _ _ _ _ _ _ _ w0_deployed). }
  split; [split_and!; [discriminate|left; vm_compute; reflexivity|vm_compute; reflexivity|vm_compute; reflexivity]|].
  split; [vm_compute; reflexivity|]. split; [vm_compute; reflexivity|].
  split; [assert (w_ul (run w_staked leftover_ops) = [1001; 1000]) as -> by (vm_compute; reflexivity); by left|].
  split; [done|]. split; [vm_compute in Ep; injection Ep as <-; vm_compute; discriminate|].
  split; [exists scfg_default; split; [vm_compute; reflexivity|split; vm_compute; discriminate]|].
  intros. apply small_queue. vm_compute. reflexivity.
Qed.

(** C55: a rejected delegation leaves half an EGLD at provider 1000 *)
Definition rejected_ops : list op :=
  [OTx 100 (3 * E / 2) [] (Whitelist 1000 77 0 0 10 800); OExec 0 (Some 0); OCb 0;
   OTx 500 E [] Delegate; OTx 100 0 [] (DelegatePending None);
   OTx 500 0 [Pay TokLs E] UnDelegate; OTx 100 0 [] (UnDelegatePending None);
   OExec 0 None; OExec 0 (Some 0); OCb 0; OCb 0;
   OTx 100 (50 * E) [] (Whitelist 1001 78 0 0 10 800); OExec 0 (Some 0); OCb 0;
   OTx 100 0 [Pay TokLs (40 * E)] UnDelegate].
Lemma failure_blocks :
  exists w u c p, ReachableClean w /\ operator u w /\ unanswered w = [] /\ ONE_EGLD <= unstake_queue w
    /\ c ∈ w_ul w /\ w_pv w !! c = Some p /\ unstake_queue w + ONE_EGLD <= p_staked p
    /\ (exists s, c_score (w_cfg w) = Some s /\ distinct_bounds s)
    /\ snd (step w (OTx u 0 [] (UnDelegatePending None))) = SErr EUnderflow
    /\ forall v eg pays o, snd (step w (OTx v eg pays (UnDelegatePending o))) <> SOk.
Proof.
  exists (run w_tok rejected_ops), 100, 1001, (Prov 78 0 0 10 800 (50 * E) 0 true 0 0).
  split. { apply (clean_run w0 (firstn 8 setup_ops ++ rejected_ops)); [vm_compute; reflexivity|].
    exact (clean_deploy _ _ _ _ _ _ _ _ _ _ w0_deployed). }
  split; [split_and!; [discriminate|left; vm_compute; reflexivity|vm_compute; reflexivity|vm_compute; reflexivity]|].
  split; [vm_compute; reflexivity|]. split; [vm_compute; discriminate|].
  assert (w_ul (run w_tok rejected_ops) = [1000; 1001]) as Eu by (vm_compute; reflexivity).
  split; [rewrite Eu; right; by left|]. split; [vm_compute; reflexivity|]. split; [vm_compute; discriminate|].
  split; [exists scfg_default; split; [vm_compute; reflexivity|split; vm_compute; discriminate]|].
  split; [vm_compute; reflexivity|].
  intros. apply (blocked_undel _ v eg pays o 1000 [1001] (Prov 77 0 0 10 800 (E / 2) E false 0 0)); [exact Eu|vm_compute; reflexivity..].
Qed.

(** C56 *)
Definition twice_ops : list op :=
  [OTx 100 0 [] (ChangeParams 1000 0 0 10 800 false); OTx 500 (990 * E) [] Delegate;
   OTx 100 0 [] (DelegatePending (Some (490 * E))); OTx 100 0 [] (DelegatePending (Some (490 * E)))].
Lemma cap_exceeded :
  exists w os c p p', Reachable w /\ Forall (eq SOk) (statuses w os)
    /\ Forall (fun o => match o with OTx _ _ _ (ChangeParams c' _ _ _ _ _) => c' <> c | _ => True end) os
    /\ w_pv w !! c = Some p /\ w_pv (run w os) !! c = Some p'
    /\ p_cap p' <> 0 /\ p_staked p + p_pst p + p_total p <= p_cap p
    /\ p_cap p' < p_staked p' + p_pst p' + p_total p'.
Proof.
  exists w_setup, twice_ops, 1001, (Prov 78 (3 * E) (500 * E) 20 900 E 0 true 0 0),
    (Prov 78 (3 * E) (500 * E) 20 900 E 0 true (980 * E) 0).
  split; [exact w_setup_reach|]. split; [apply all_ok; vm_compute; reflexivity|]. split; [by repeat constructor|].
  split; [vm_compute; reflexivity|]. split; [vm_compute; reflexivity|]. vm_compute. repeat split; discriminate.
Qed.

(** C57: whitelistings before the LS token is issued *)
Definition early_ops : list op :=
  [OTx 100 (2 * E) [] (Whitelist 1000 77 0 0 10 800); OTx 100 (3 * E) [] (Whitelist 1001 77 0 0 10 800);
   OExec 0 (Some 0); OExec 0 None; OCb 0; OCb 0].
Lemma payment_stranded :
  exists w os, Deployed w
    /\ statuses w os = [SOk; SOk; SOk; SOk; SCbFail ELsTokenNotIssued; SCbFail ELsTokenNotIssued]
    /\ history_sum (fun o s => match o, s with OTx _ a _ (Whitelist _ _ _ _ _ _), SOk => a | _, _ => 0 end) w os = 5 * E
    /\ unanswered (run w os) = []
    /\ egld_received 100 w os = 0 /\ ls_in_existence (run w os) = 0
    /\ (forall c, recorded (run w os) c = (0, 0)) /\ unaccounted (run w os) = 3 * E
    /\ live_of (run w os) 1000 = (2 * E, 0).
Proof.
  exists w0, early_ops. split; [exact w0_is_deployed|]. do 5 (split; [vm_compute; reflexivity|]). split.
  - intros c. unfold recorded. destruct (w_pv (run w0 early_ops) !! c) as [p|] eqn:Ep; [|done].
    assert (K : forallb (fun x => (p_staked (snd x) =? 0) && (p_unstaked (snd x) =? 0)) (map_to_list (w_pv (run w0 early_ops))) = true)
      by (vm_compute; reflexivity).
    rewrite forallb_forall in K. specialize (K (c, p)). cbn in K. apply elem_of_map_to_list, elem_of_list_In in Ep.
    specialize (K Ep). apply andb_true_iff in K as [K1 K2]. apply N.eqb_eq in K1, K2. by rewrite K1, K2.
  - vm_compute. split; reflexivity.
Qed.

(** C58 *)
Lemma config_breaks :
  exists w u s, let w' := fst (step w (OTx u 0 [] (SetScoringConfig s))) in
    Reachable w /\ snd (step w (OTx u 0 [] (SetScoringConfig s))) = SOk
    /\ snd (step w (OTx u 0 [] (DelegatePending None))) = SOk
    /\ snd (step w' (OTx u 0 [] (DelegatePending None))) = SErr EDivZero.
Proof.
  exists w_deposit, 100, (Scfg 10 10 500 1000 40 50 10 1000 3 4). cbv zeta. split; [exact w_deposit_reach|].
  vm_compute. repeat split; reflexivity.
Qed.

(** C59 *)
Definition idle_ops : list op :=
  [OTx 100 E [] (Whitelist 1002 79 (50 * E) (50 * E) 20 900); OExec 0 (Some 0); OCb 0; OTx 500 (3 * E) [] Delegate;
   OTx 100 0 [] (DelegatePending (Some E)); OTx 100 0 [] (DelegatePending (Some E))].
Lemma idle_batch :
  exists w u c p, let w' := fst (step w (OTx u 0 [] (DelegatePending (Some ONE_EGLD)))) in
    ReachableClean w /\ snd (step w (OTx u 0 [] (DelegatePending (Some ONE_EGLD)))) = SOk
    /\ c ∈ w_dl w /\ w_pv w !! c = Some p /\ p_elig p = true /\ p_cap p = 0
    /\ ONE_EGLD <= pending_egld w /\ w_calls w' = w_calls w /\ pending_egld w' = pending_egld w /\ w_dl w' = w_dl w.
Proof.
  exists (run w_setup idle_ops), 100, 1000. cbv zeta.
  destruct (w_pv (run w_setup idle_ops) !! 1000) as [p|] eqn:Ep; [|vm_compute in Ep; discriminate]. exists p.
  split. { apply (clean_run w0 (setup_ops ++ idle_ops)); [vm_compute; reflexivity|].
    exact (clean_deploy _ _ _ _ _ _ _ _ _ _ w0_deployed). }
  split; [vm_compute; reflexivity|].
  split; [assert (w_dl (run w_setup idle_ops) = [1002; 1000; 1001]) as -> by (vm_compute; reflexivity); right; by left|].
  split; [done|]. split; [vm_compute in Ep; by injection Ep as <-|]. split; [vm_compute in Ep; by injection Ep as <-|].
  split; [vm_compute; discriminate|]. vm_compute. repeat split; reflexivity.
Qed.

(** C60 *)
Definition dear_ops : list op :=
  [OTx 600 (2 * E) [] Delegate; OTx 600 0 [Pay TokLs (2 * E - 1)] UnDelegate; OTx 600 (3 * E / 2) [] AddRewards].
Lemma dear_deposit :
  exists w u a m e, let w' := fst (step w (OTx u a [] Delegate)) in
    ReachableClean w /\ ONE_EGLD <= a /\ snd (step w (OTx u a [] Delegate)) = SOk
    /\ ls_balance u w = 0 /\ ls_balance u w' = m /\ view_ls_value m w' = Ok e /\ 5 * e <= 4 * a.
Proof.
  exists (run w_tok dear_ops), 500, (29 * E / 10), 1, 2200000000000000000. cbv zeta.
  split. { apply (clean_run w0 (firstn 8 setup_ops ++ dear_ops)); [vm_compute; reflexivity|].
    exact (clean_deploy _ _ _ _ _ _ _ _ _ _ w0_deployed). }
  vm_compute. repeat split; discriminate.
Qed.
