(** L_Real.v — promises against real assets. *)
From Verif Require Export L_Books L_Find2 L_Lost.
From Verif Require Import Scenario.

(** What has arrived at a provider, or left it, without the contract having heard. *)
Definition arrived (x : call * reply) : N :=
  match x with (KDeleg _ a, RDone _) | (KWhite _ a _, RDone _) => a | _ => 0 end.
Definition handed (x : call * reply) : N := match x with (KWithd _, RDone v) => v | _ => 0 end.

Definition lhs (w : world) : N := at_providers w + sumN (map handed (w_res w)).
Definition rhs (w : world) : N :=
  gsum (fun _ => p_staked) (w_pv w) + gsum (fun _ => p_unstaked) (w_pv w) + sumN (map arrived (w_res w)).

Ltac gs2 c p' :=
  match goal with H : w_pv ?w !! c = Some ?p |- _ =>
    pose proof (gsum_insert (fun _ : N => p_unstaked) (w_pv w) c p');
    pose proof (gsum_insert (fun _ : N => p_staked) (w_pv w) c p');
    unfold gat in *; rewrite H in *; cbn in *
  end.

Lemma exec_real w out k r w1 :
  exec_call k out w = Some (r, w1) ->
  gsum (fun _ y => fst y + snd y) (w_live w1) + handed (k, r)
  = gsum (fun _ y => fst y + snd y) (w_live w) + arrived (k, r).
Proof.
  intros H. unfold exec_call, live_of in H. destruct out as [v|].
  - destruct k as [c a|c a|c|l|c a who|b who a];
      try (pose proof (live_insert (w_live w) c) as HI; destruct (default (0, 0) (w_live w !! c)) as [x u] eqn:E);
      try (destruct (_ <=? _) eqn:B); try discriminate H; injection H as <- <-; cbn; try lia.
    + specialize (HI (x + a) u). cbn in HI. lia.
    + specialize (HI (x - a) (u + a)). cbn in HI. lia.
    + specialize (HI x (u - v)). cbn in HI. lia.
    + specialize (HI (x + a) u). cbn in HI. lia.
  - injection H as <- <-. cbn. by destruct k.
Qed.

Lemma real_did w o w' s :
  Lists w -> did w o w' s ->
  lhs w' + rhs w + provider_loss w o s w' + lost handed w o s w'
  = rhs w' + lhs w + provider_gain w o s w' + lost arrived w o s w'.
Proof.
  intros L D. unfold lhs, rhs, at_providers, provider_loss, provider_gain.
  destruct D; subst_pools;
    try (match goal with H : nth_error (w_res w) ?i = Some (?k, ?r) |- _ =>
           pose proof (sumN_drop_nth handed i (w_res w) (k, r) H) as HD1;
           pose proof (sumN_drop_nth arrived i (w_res w) (k, r) H) as HD2; try rewrite H; try (is_var r; destruct r); try discriminate end);
    try (cbn [lost]; try match goal with H : nth_error (w_res w) ?i = Some _ |- _ => rewrite H end; cbn in *; lia).
  - destruct s, o; try done; cbn; lia.
  - um_clean. cbn. lia.
  - match goal with H : Forall (deleg_sel_ok _) _ |- _ => pose proof (deleg_sel_recs _ _ H) as Hr end.
    cbn. rewrite (gsum_add_psts p_unstaked), (gsum_add_psts p_staked) by done. lia.
  - match goal with H : Forall (undel_sel_ok _) _ |- _ => pose proof (undel_sel_recs _ _ H) as Hr end.
    cbn. rewrite (gsum_add_puns p_unstaked), (gsum_add_puns p_staked) by done. lia.
  - match goal with H : w_pv w !! c = None |- _ => cbn; rewrite !(gsum_insert_new _ _ _ _ H); cbn; lia end.
  - gs2 c (set_p_admin admin p). lia.
  - gs2 c (with_params total cap nodes apy elig p). lia.
  - match goal with H : exec_call _ _ _ = _ |- _ => pose proof (exec_real _ _ _ _ _ H) as HE; apply exec_call_frame in H as [l ->] end.
    cbn in *. rewrite !map_app, !sumN_app. cbn. lia.
  - gs2 c (p_undelegated a p). lia.
  - gs2 c (p_undel_failed a p). lia.
  - gs2 c (p_delegated a p). lia.
  - gs2 c (p_deleg_failed a p). lia.
  - gs2 c (set_p_unstaked (p_unstaked p - v) p). lia.
  - gs2 c (set_p_staked (p_staked p + a) p). lia.
  - destruct (lists_take _ _ _ _ ltac:(eassumption) L) as (_ & [_ (p & Hp & Hf)] & _).
    destruct Hf as (F1 & F2 & F3 & F4). cbn in *. rewrite !(gsum_delete _ (w_pv w) _ _ Hp), F1, F2. lia.
  - pose proof (live_insert (w_live w) c x u) as HI. unfold live_of. cbn. lia.
Qed.

Lemma real_history w os :
  Reachable w ->
  lhs (run w os) + rhs w + tally provider_loss w os + tally (lost handed) w os
  = rhs (run w os) + lhs w + tally provider_gain w os + tally (lost arrived) w os.
Proof.
  revert w. induction os as [|o os IH]; intros w Hr; cbn [run tally] in *; [lia|].
  specialize (IH _ (reach_step w o Hr)).
  pose proof (real_did _ _ _ _ (lists w Hr : Lists (set_log [] w)) (step_did w o)) as H1.
  change (lost handed (set_log [] w)) with (lost handed w) in H1.
  change (lost arrived (set_log [] w)) with (lost arrived w) in H1.
  change (lhs (set_log [] w)) with (lhs w) in H1. change (rhs (set_log [] w)) with (rhs w) in H1.
  change (provider_loss (set_log [] w)) with (provider_loss w) in H1.
  change (provider_gain (set_log [] w)) with (provider_gain w) in H1. lia.
Qed.

Lemma transit_calls l : sumN (map carries l) = sumN (map deleg_any l) + sumN (map first_stake l).
Proof. induction l as [|k l IH]; [done|]. cbn. rewrite IH. destruct k; cbn; lia. Qed.
Lemma transit_res l :
  sumN (map comes_with l) + sumN (map arrived l)
  = sumN (map deleg_any (map fst l)) + sumN (map uncredited l) + sumN (map handed l).
Proof. induction l as [|[k r] l IH]; [done|]. cbn. destruct k, r; cbn; lia. Qed.

Lemma tally_lost (f g : call * reply -> N) w os :
  (forall x, f x = g x) -> tally (lost f) w os = tally (lost g) w os.
Proof.
  intros H. revert w. induction os as [|o os IH]; intros w; cbn [tally]; [done|]. rewrite IH. f_equal.
  unfold lost. generalize (snd (step w o)). intros s. destruct o, s; try done; destruct (nth_error _ _); done.
Qed.
Lemma tally_lost_add (f g : call * reply -> N) w os :
  tally (lost (fun x => f x + g x)) w os = tally (lost f) w os + tally (lost g) w os.
Proof.
  revert w. induction os as [|o os IH]; intros w; cbn [tally]; [done|]. rewrite IH.
  enough (lost (fun x => f x + g x) w o (snd (step w o)) (fst (step w o))
    = lost f w o (snd (step w o)) (fst (step w o)) + lost g w o (snd (step w o)) (fst (step w o))) by lia.
  unfold lost. generalize (snd (step w o)). intros s. destruct o, s; try done; destruct (nth_error _ _); done.
Qed.
Lemma transit_lost w os :
  tally (lost comes_with) w os + tally (lost arrived) w os
  = tally (lost (by_call deleg_any)) w os + tally (lost uncredited) w os + tally (lost handed) w os.
Proof.
  rewrite <- !tally_lost_add. apply tally_lost. intros [k r]. unfold by_call. destruct k, r; cbn; lia.
Qed.
Lemma unbooked_split w os : tally arrives_unbooked w os = tally gift w os + tally (lost comes_with) w os.
Proof.
  revert w. induction os as [|o os IH]; intros w; cbn [tally]; [done|]. rewrite IH.
  enough (arrives_unbooked w o (snd (step w o)) (fst (step w o))
    = gift w o (snd (step w o)) (fst (step w o)) + lost comes_with w o (snd (step w o)) (fst (step w o))) by lia.
  unfold arrives_unbooked, gift, lost. generalize (snd (step w o)). intros s. destruct o; try destruct ep; destruct s; lia.
Qed.

Lemma promises_assets w os :
  Deployed w ->
  promises (run w os) + not_booked_yet (run w os) + tally gift w os + tally (lost uncredited) w os
    + history_sum ust_given_away w os + history_sum migrated_pending w os + tally provider_gain w os
  = assets (run w os) + history_sum migrated_stake w os + tally provider_loss w os.
Proof.
  intros Hd. set (v := run w os).
  assert (Hr : Reachable v) by (subst v; revert w Hd; intros w Hd; apply deployed_reach in Hd; revert w Hd; induction os as [|o os IH]; intros w Hd; [done|apply IH, reach_step, Hd]).
  pose proof (books_history w os Hd) as H1. fold v in H1.
  pose proof (ust_backing w os Hd) as H2. pose proof (reserve_backing w os Hd) as H3. fold v in H2, H3.
  pose proof (unbonding_is_sum v Hr) as H4.
  pose proof (real_history w os (deployed_reach w Hd)) as H5. fold v in H5.
  destruct (lost_total_deployed w os Hd) as [E _]. fold v in E.
  pose proof (transit_lost w os) as H8. pose proof (unbooked_split w os) as H9.
  destruct (deploy_shape w Hd) as (g & e & ow & Hw).
  assert (lhs w = 0 /\ rhs w = 0) as [E1 E2] by (rewrite Hw; split; reflexivity).
  rewrite E1, E2 in H5. unfold lhs in H5.
  change (rhs v) with (staked_total v + unstaked_total v + sumN (map arrived (w_res v))) in H5.
  pose proof (transit_calls (w_calls v)) as H6. pose proof (transit_res (w_res v)) as H7.
  unfold promises, assets, not_booked_yet, under_way, on_way_back.
  unfold delegating_total, unanswered in E. rewrite map_app, sumN_app in E. lia.
Qed.

Lemma promises_covered w os :
  Deployed w ->
  promises (run w os) <= assets (run w os) + history_sum migrated_stake w os + tally provider_loss w os.
Proof. intros Hd. pose proof (promises_assets w os Hd). lia. Qed.

Lemma shortfall w os :
  Deployed w -> history_sum migrated_stake w os = 0 -> history_sum migrated_pending w os = 0 ->
  assets (run w os) + tally provider_loss w os
  = promises (run w os) + tally provider_gain w os
    + (not_booked_yet (run w os) + tally gift w os + tally (lost uncredited) w os + history_sum ust_given_away w os).
Proof. intros Hd H1 H2. pose proof (promises_assets w os Hd). lia. Qed.

(** 500 keeps as much as 1001 pays back, 501 gets as much, 502 the rest; 1000 loses
    all that was unbonding there *)
Definition slash_ops : list op :=
  unbonding_ops ++ [OMoveUst 1 500 501 13794723465119715928; OMoveUst 1 500 502 11243494246231156379; OEpoch 10; OProvider 1000 0 0;
   OTx 100 0 [] (WithdrawPending 1000); OTx 100 0 [] (WithdrawPending 1001);
   OExec 0 (Some 0); OExec 0 (Some 13794723465119715928); OCb 0; OCb 0].

Lemma all_live_zero w :
  forallb (fun z => snd (snd z) =? 0) (map_to_list (w_live w)) = true -> forall c, snd (live_of w c) = 0.
Proof.
  intros K c. unfold live_of. destruct (w_live w !! c) as [y|] eqn:Ey; [|reflexivity].
  rewrite forallb_forall in K. apply elem_of_map_to_list, elem_of_list_In in Ey. specialize (K _ Ey). cbn in *.
  by apply N.eqb_eq.
Qed.

Lemma loss_not_shared :
  exists w os u v n r a, let x := run w os in
    Deployed w /\ clean_history w os /\ 0 < tally provider_loss w os
    /\ history_sum migrated_stake w os = 0 /\ assets x < promises x
    /\ u <> v /\ release_epoch n x = Some r /\ r <= w_epoch x
    /\ 0 < a /\ ust_of n u x = a /\ ust_of n v x = a
    /\ w_calls x = [] /\ w_res x = [] /\ unstake_queue x = 0 /\ (forall c, snd (live_of x c) = 0)
    /\ snd (step x (OTx u 0 [Pay (TokUst n) a] Withdraw)) = SOk
    /\ egld_sent u (fst (step x (OTx u 0 [Pay (TokUst n) a] Withdraw))) = a
    /\ forall eg p pays, snd (step (fst (step x (OTx u 0 [Pay (TokUst n) a] Withdraw))) (OTx v eg (p :: pays) Withdraw)) <> SOk.
Proof.
  exists w0, slash_ops, 500, 501, 1, 15, 13794723465119715928. cbv zeta.
  split; [exact w0_is_deployed|]. split; [apply clean_history_b; vm_compute; reflexivity|].
  split; [vm_compute; reflexivity|]. split; [vm_compute; reflexivity|]. split; [vm_compute; reflexivity|].
  split; [discriminate|]. split; [vm_compute; reflexivity|]. split; [vm_compute; discriminate|].
  do 6 (split; [vm_compute; reflexivity|]).
  split.
  { apply all_live_zero. vm_compute. reflexivity. }
  do 2 (split; [vm_compute; reflexivity|]).
  intros. apply empty_pot. vm_compute. reflexivity.
Qed.
