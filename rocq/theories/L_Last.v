(** L_Last.v — what a history says last is how things stand (C106 to C108). *)
From Verif Require Export Spec11.
From Verif Require Import L_Frame L_Settle L_Donate L_Net L_Access L_Exits.

Lemma last_word_snoc {A} (said : world -> op -> option A) w os o :
  last_word said w (os ++ [o])
  = match snd (step (run w os) o), said (run w os) o with SOk, Some a => Some a | _, _ => last_word said w os end.
Proof.
  revert w. induction os as [|x os IH]; intros w; cbn [app last_word run].
  - destruct (snd (step w o)); try done. by destruct (said w o).
  - rewrite IH. destruct (snd (step (run (fst (step w x)) os) o)); try done.
    by destruct (said (run (fst (step w x)) os) o).
Qed.

Lemma from_owner_inv w o ep : from_owner w o = Some ep -> o = OTx (w_owner w) 0 [] ep.
Proof.
  unfold from_owner. destruct o as [u a pays e| | | | | | | | |]; try done. destruct a; try done. destruct pays; try done.
  destruct (u =? w_owner w) eqn:B; try done. intros [= ->]. assert (u = w_owner w) as -> by lia. done.
Qed.
Lemma from_owner_is w ep : from_owner w (OTx (w_owner w) 0 [] ep) = Some ep.
Proof. cbn. by rewrite N.eqb_refl. Qed.
Lemma from_charge_inv w o ep : from_charge w o = Some ep -> exists u a, o = OTx u a [] ep /\ in_charge u w = true.
Proof.
  unfold from_charge. destruct o as [u a pays e| | | | | | | | |]; try done. destruct pays; try done.
  destruct (in_charge u w) eqn:B; try done. intros [= ->]. eauto.
Qed.
Lemma in_charge_b u w : in_charge u w = manager_b u w.
Proof. unfold in_charge, manager_b. apply orb_comm. Qed.
Lemma from_charge_is w u a ep : manager_b u w = true -> from_charge w (OTx u a [] ep) = Some ep.
Proof. intros H. cbn. by rewrite in_charge_b, H. Qed.
Lemma from_admin_inv c w o ep : from_admin c w o = Some ep ->
  exists u p, o = OTx u 0 [] ep /\ w_pv w !! c = Some p /\ (u = p_admin p \/ in_charge u w = true).
Proof.
  unfold from_admin. destruct o as [u a pays e| | | | | | | | |]; try done. destruct a; try done. destruct pays; try done.
  destruct (w_pv w !! c) as [p|]; try done.
  destruct (u =? p_admin p) eqn:B; cbn [orb].
  - intros [= ->]. exists u, p. split_and!; try done. left. lia.
  - destruct (in_charge u w) eqn:B2; try done. intros [= ->]. eauto 6.
Qed.
Lemma from_admin_is c w u p ep : w_pv w !! c = Some p -> (p_admin p = u \/ manager_b u w = true) ->
  from_admin c w (OTx u 0 [] ep) = Some ep.
Proof.
  intros Hp H. cbn. rewrite Hp, in_charge_b. destruct H as [<-|H]; [by rewrite N.eqb_refl|]. rewrite H, orb_true_r. done.
Qed.

(** [get] is what [said] says. *)
Definition told {A} (get : world -> A) (said : world -> op -> option A) : Prop :=
  forall w o w' s, did w o w' s -> get w' = match s, said w o with SOk, Some a => a | _, _ => get w end.

Lemma told_last {A} (get : world -> A) said w os :
  told get said -> (forall v, get (set_log [] v) = get v) -> (forall v o, said (set_log [] v) o = said v o) ->
  get (run w os) = default (get w) (last_word said w os).
Proof.
  intros Ht Hg Hs. induction os as [|o os IH] using rev_ind; [done|].
  rewrite run_app, last_word_snoc. cbn [run].
  rewrite (Ht _ _ _ _ (step_did (run w os) o)), Hg, Hs, IH.
  destruct (snd (step (run w os) o)); try done. by destruct (said (run w os) o).
Qed.

Ltac no_word :=
  repeat match goal with
  | |- context [from_owner ?w ?o] =>
      let E := fresh "E" in destruct (from_owner w o) eqn:E; [apply from_owner_inv in E; inversion E; subst|]
  | |- context [from_charge ?w ?o] =>
      let E := fresh "E" in destruct (from_charge w o) eqn:E;
      [apply from_charge_inv in E; destruct E as (? & ? & E & ?); inversion E; subst|]
  end; try reflexivity.

Ltac told_cfg said :=
  intros w o w' s D; destruct D; subst_pools; unfold said;
  try match goal with H : ust_maybe _ _ _ _ |- _ => um_clean end;
  try match goal with H : exec_call _ _ _ = _ |- _ => apply exec_call_frame in H as [? ->] end;
  try (match goal with H : match ?s with _ => _ end |- _ => destruct s; by try destruct H end);
  try match goal with H : match ?ep with _ => _ end, K : _ = w_owner _ |- _ => subst; rewrite ?from_owner_is;
     destruct ep; lazymatch type of H with False => destruct H | _ /\ _ => destruct H as [-> ?] | _ => rewrite H end; try reflexivity end;
  try (rewrite from_charge_is by assumption; reflexivity);
  no_word; try reflexivity;
  try match goal with |- context [issue_cfg ?ls] => by destruct ls end.

Lemma told_active : told (fun w => c_active (w_cfg w)) said_active. Proof. told_cfg said_active. Qed.
Lemma told_fees : told (fun w => c_fees (w_cfg w)) said_fees. Proof. told_cfg said_fees. Qed.
Lemma told_accumulator : told (fun w => c_acc (w_cfg w)) said_accumulator. Proof. told_cfg said_accumulator. Qed.
Lemma told_rounds : told (fun w => c_minr (w_cfg w)) said_rounds. Proof. told_cfg said_rounds. Qed.
Lemma told_max_listed : told (fun w => c_maxaddr (w_cfg w)) said_max_listed. Proof. told_cfg said_max_listed. Qed.
Lemma told_max_selected : told (fun w => c_maxsel (w_cfg w)) said_max_selected. Proof. told_cfg said_max_selected. Qed.
Lemma told_period : told (fun w => c_unbond (w_cfg w)) said_period. Proof. told_cfg said_period. Qed.
Lemma told_migration : told (fun w => c_migr (w_cfg w)) said_migration. Proof. told_cfg said_migration. Qed.
Lemma told_scoring : told (fun w => c_score (w_cfg w)) said_scoring. Proof. told_cfg said_scoring. Qed.
Lemma told_owner : told (fun w => w_owner w) said_owner. Proof. told_cfg said_owner. Qed.

(** * Managers *)
Lemma in_b m l : existsb (N.eqb m) l = true <-> m ∈ l.
Proof.
  rewrite existsb_exists. split.
  - intros (x & Hx & E). apply N.eqb_eq in E as ->. by apply elem_of_list_In.
  - intros H. exists m. split; [by apply elem_of_list_In|apply N.eqb_refl].
Qed.

Lemma tx_failed w u a pays ep w' s : did w (OTx u a pays ep) w' s -> s <> SOk -> w' = w.
Proof. inversion 1; subst; congruence. Qed.

Lemma told_manager m w o : Reachable w ->
  (m ∈ c_mgrs (w_cfg (fst (step w o)))
   <-> match snd (step w o), said_manager m w o with SOk, Some b => b = true | _, _ => m ∈ c_mgrs (w_cfg w) end).
Proof.
  intros Hr. destruct (may_change w o SManagers) eqn:B.
  - destruct o as [u a pays ep| | | | | | | | |]; try discriminate B.
    + pose proof (step_did w (OTx u a pays ep)) as D.
      destruct ep; try discriminate B; [|rename a0 into x].
      * destruct (snd (step w (OTx u a pays (AddManagers l)))) eqn:Hs;
          try (rewrite (tx_failed _ _ _ _ _ _ _ D) by congruence; done).
        rewrite (add_managers_done w u a pays l Hs). assert (u = w_owner w /\ a = 0 /\ pays = []) as (-> & -> & ->) by (inversion D; subst; done).
        unfold said_manager. rewrite from_owner_is.
        destruct (existsb (N.eqb m) l) eqn:E; [apply in_b in E; tauto|].
        assert (m ∉ l) by (rewrite <- in_b; congruence). tauto.
      * destruct (snd (step w (OTx u a pays (RemoveManager x)))) eqn:Hs;
          try (rewrite (tx_failed _ _ _ _ _ _ _ D) by congruence; done).
        rewrite (remove_manager_done w u a pays x Hr Hs). assert (u = w_owner w /\ a = 0 /\ pays = []) as (-> & -> & ->) by (inversion D; subst; done).
        unfold said_manager. rewrite from_owner_is.
        destruct (x =? m) eqn:E; [|assert (m <> x) by lia; tauto].
        assert (m = x) by lia. split; [tauto|done].
    + cbn in B. destruct (nth_error (w_res w) i) as [[k r]|]; [|done]. destruct k as [| | | | |[] ? ?], r; discriminate B.
  - pose proof (frame_step w o SManagers B) as F. cbn in F. rewrite F.
    assert (said_manager m w o = None) as ->.
    { unfold said_manager. destruct (from_owner w o) as [ep|] eqn:E; [|done]. apply from_owner_inv in E. subst o.
      destruct ep; try done; discriminate B. }
    by destruct (snd (step w o)).
Qed.

Lemma managers_last m w os : Reachable w ->
  (m ∈ c_mgrs (w_cfg (run w os))
   <-> match last_word (said_manager m) w os with Some b => b = true | None => m ∈ c_mgrs (w_cfg w) end).
Proof.
  intros Hr. induction os as [|o os IH] using rev_ind; [done|].
  rewrite run_app, last_word_snoc. cbn [run]. rewrite told_manager by (by apply reach_run_).
  destruct (snd (step (run w os) o)); try done. by destruct (said_manager m (run w os) o).
Qed.

(** * Records *)
Lemma same_params w v c : same (RParams c) w v -> (params_of <$> w_pv v !! c) = (params_of <$> w_pv w !! c).
Proof.
  cbn. unfold params_of. intros (H1 & H2 & H3 & H4). destruct (w_pv v !! c) as [p|], (w_pv w !! c) as [q|]; cbn in *; congruence.
Qed.

Lemma removed_may c w o : removed c w o = true ->
  may_change w o (RAdmin c) = true /\ may_change w o (RParams c) = true /\ may_change w o (REligible c) = true.
Proof.
  unfold removed. destruct o; try done. cbn. destruct (nth_error (w_res w) i) as [[k r]|]; try done.
  destruct k, r; try done. intros H. apply N.eqb_eq in H as ->. cbn. by rewrite N.eqb_refl.
Qed.

(** Only the actions that may change the entry are left. *)
Ltac movers B :=
  match goal with D : did _ _ _ _ |- _ => destruct D end;
  try (match goal with H : match ?s with _ => _ end |- _ => is_var s; destruct s; by try destruct H end);
  try (match goal with Hn : nth_error (w_res _) _ = Some (?k, ?r) |- _ =>
         unfold may_change in B; rewrite Hn in B; try (is_var r; destruct r; try discriminate) end);
  cbn in B; try discriminate B;
  try (match goal with H : match ?ep with _ => _ end |- _ => is_var ep; destruct ep; first [by destruct H|discriminate B] end);
  try reflexivity;
  try (match type of B with (if ?ls then _ else _) = _ => destruct ls; discriminate B end);
  apply N.eqb_eq in B as <-; unfold entry, removed; cbn -[lookup insert delete from_charge from_admin];
  try match goal with Hn : nth_error (w_res _) _ = Some _ |- _ => rewrite Hn end;
  rewrite ?N.eqb_refl, ?lookup_insert, ?lookup_delete; try reflexivity.

Lemma told_admin c : told (fun w => p_admin <$> w_pv w !! c) (entry c (said_admin c)).
Proof.
  intros w o w' s D. destruct (may_change w o (RAdmin c)) eqn:B.
  - movers B; unfold said_admin; rewrite from_charge_is, N.eqb_refl by assumption; reflexivity.
  - pose proof (frame_did _ _ _ _ _ D B) as F. cbn in F. rewrite F.
    assert (entry c (said_admin c) w o = None) as ->; [|by destruct s].
    unfold entry. destruct (removed c w o) eqn:E; [apply removed_may in E as (E & _ & _); congruence|].
    unfold said_admin. destruct (from_charge w o) as [ep|] eqn:F1; [|done].
    apply from_charge_inv in F1 as (u & a & -> & _). destruct ep; try done; cbn in B; by rewrite N.eqb_sym, B.
Qed.

Lemma told_params c : told (fun w => params_of <$> w_pv w !! c) (entry c (said_params c)).
Proof.
  intros w o w' s D. destruct (may_change w o (RParams c)) eqn:B.
  - movers B; unfold said_params.
    + rewrite from_charge_is, N.eqb_refl by assumption. reflexivity.
    + erewrite from_admin_is, N.eqb_refl by eassumption. no_word.
  - pose proof (same_params _ _ _ (frame_did _ _ _ _ _ D B)) as F. rewrite F.
    assert (entry c (said_params c) w o = None) as ->; [|by destruct s].
    unfold entry. destruct (removed c w o) eqn:E; [apply removed_may in E as (_ & E & _); congruence|].
    unfold said_params. destruct (from_charge w o) as [ep|] eqn:F1, (from_admin c w o) as [ep2|] eqn:F2; try done;
      try apply from_charge_inv in F1 as (u & a & -> & _);
      try apply from_admin_inv in F2 as (u2 & q & F2 & _); try inversion F2; subst; 
      try destruct ep; try destruct ep2; try done; cbn in B; by rewrite N.eqb_sym, B.
Qed.

Lemma told_eligible c : told (fun w => p_elig <$> w_pv w !! c) (entry c (said_eligible c)).
Proof.
  intros w o w' s D. destruct (may_change w o (REligible c)) eqn:B.
  - movers B; unfold said_eligible.
    + rewrite from_charge_is, N.eqb_refl by assumption. reflexivity.
    + erewrite from_admin_is, N.eqb_refl by eassumption. no_word.
    + cbn [from_charge from_admin]. match goal with Hn : nth_error (w_res _) _ = Some _ |- _ => rewrite Hn end.
      by rewrite N.eqb_refl.
  - pose proof (frame_did _ _ _ _ _ D B) as F. cbn in F. rewrite F.
    assert (entry c (said_eligible c) w o = None) as ->; [|by destruct s].
    unfold entry. destruct (removed c w o) eqn:E; [apply removed_may in E as (_ & _ & E); congruence|].
    unfold said_eligible. destruct (from_charge w o) as [ep|] eqn:F1, (from_admin c w o) as [ep2|] eqn:F2; try done;
      try apply from_charge_inv in F1 as (u & a & -> & _);
      try apply from_admin_inv in F2 as (u2 & q & F2 & _); try inversion F2; subst;
      try destruct ep; try destruct ep2; try done; cbn in B; try (by rewrite N.eqb_sym, B).
    destruct o; try done. cbn in B. destruct (nth_error (w_res w) i) as [[k r]|]; [|done].
    destruct k, r; try done. cbn in B. by rewrite N.eqb_sym, B.
Qed.

(** * The pool as the events tell it *)
Lemma watched_did w o w' s : w_log w = [] -> did w o w' s -> fold_left learns (w_log w') (w_pool w) = w_pool w'.
Proof.
  intros Hl D. destruct D; subst_pools; try (cbn; rewrite ?Hl; reflexivity).
  - cbn. rewrite fold_left_app. reflexivity.
  - cbn. rewrite !fold_left_app. reflexivity.
  - cbn. rewrite !fold_left_app. reflexivity.
  - cbn. rewrite !fold_left_app. reflexivity.
  - match goal with H : exec_call _ _ _ = _ |- _ => apply exec_call_frame in H as [? ->] end. cbn. by rewrite Hl.
  - cbn. by destruct (0 <? a).
Qed.

Lemma watched_run w os : watched (w_pool w) w os = w_pool (run w os).
Proof.
  revert w. induction os as [|o os IH]; intros w; [done|]. cbn [watched run].
  rewrite <- IH. f_equal. exact (watched_did (set_log [] w) o _ _ eq_refl (step_did w o)).
Qed.


(** * Whom stake is sent to *)
Lemma stake_sent w o c a :
  In (XCall (KDeleg c a)) (w_log (fst (step w o))) -> exists p, w_pv w !! c = Some p /\ p_elig p = true.
Proof.
  intros HI. pose proof (leaves_step w o _ HI) as L.
  destruct L as (_ & _ & u & z & _ & ->).
  pose proof (step_did w (OTx u 0 [] (DelegatePending z))) as D.
  remember (fst (step w (OTx u 0 [] (DelegatePending z)))) as v. clear Heqv.
  inversion D; subst; [done| |]; cbn in *; [|done].
  apply in_app_or in HI as [HI|[HI|[]]]; [|discriminate HI]. apply in_map_iff in HI as (d & Hd & HI).
  match goal with H : Forall (deleg_sel_ok _) _ |- _ => rewrite List.Forall_forall in H; destruct (H d HI) as (p & Hp & He & _) end.
  injection Hd as <- _. eauto.
Qed.

Lemma stake_last w os o c a :
  In (XCall (KDeleg c a)) (w_log (run w (os ++ [o]))) ->
  default (p_elig <$> w_pv w !! c) (last_word (entry c (said_eligible c)) w os) = Some true.
Proof.
  rewrite run_app. cbn [run]. intros HI. apply stake_sent in HI as (p & Hp & He).
  rewrite <- (told_last (fun w => p_elig <$> w_pv w !! c) (entry c (said_eligible c)) w os);
    [by rewrite Hp; cbn; rewrite He|apply told_eligible|done|done].
Qed.

Lemma stake_never w os o c a :
  (p_elig <$> w_pv w !! c) <> Some true ->
  along (fun v x => said_eligible c v x <> Some true) w os ->
  ~ In (XCall (KDeleg c a)) (w_log (run w (os ++ [o]))).
Proof.
  intros H0 Ha HI. rewrite run_app in HI. cbn [run] in HI. apply stake_sent in HI as (p & Hp & He).
  assert (X : (p_elig <$> w_pv (run w os) !! c) <> Some true); [|by rewrite Hp in X; cbn in X; rewrite He in X].
  clear p Hp He. revert w H0 Ha. induction os as [|x os IH]; intros w H0 Ha; [done|]. cbn [run along] in *.
  destruct Ha as [H1 H2]. apply IH; [|done].
  rewrite (told_eligible c _ _ _ _ (step_did w x)). cbn [w_pv set_log].
  destruct (snd (step w x)); try done. unfold entry. change (removed c (set_log [] w) x) with (removed c w x).
  change (said_eligible c (set_log [] w) x) with (said_eligible c w x). destruct (removed c w x); [done|].
  destruct (said_eligible c w x) as [[]|]; congruence.
Qed.

Lemma settings_last w os :
  let v := run w os in
  c_active (w_cfg v) = default (c_active (w_cfg w)) (last_word said_active w os)
  /\ c_fees (w_cfg v) = default (c_fees (w_cfg w)) (last_word said_fees w os)
  /\ c_acc (w_cfg v) = default (c_acc (w_cfg w)) (last_word said_accumulator w os)
  /\ c_minr (w_cfg v) = default (c_minr (w_cfg w)) (last_word said_rounds w os)
  /\ c_maxaddr (w_cfg v) = default (c_maxaddr (w_cfg w)) (last_word said_max_listed w os)
  /\ c_maxsel (w_cfg v) = default (c_maxsel (w_cfg w)) (last_word said_max_selected w os)
  /\ c_unbond (w_cfg v) = default (c_unbond (w_cfg w)) (last_word said_period w os)
  /\ c_migr (w_cfg v) = default (c_migr (w_cfg w)) (last_word said_migration w os)
  /\ c_score (w_cfg v) = default (c_score (w_cfg w)) (last_word said_scoring w os)
  /\ w_owner v = default (w_owner w) (last_word said_owner w os)
  /\ c_rpe (w_cfg v) = c_rpe (w_cfg w).
Proof.
  cbv zeta. split_and!.
  - exact (told_last (fun v => c_active (w_cfg v)) _ w os told_active (fun _ => eq_refl) (fun _ _ => eq_refl)).
  - exact (told_last (fun v => c_fees (w_cfg v)) _ w os told_fees (fun _ => eq_refl) (fun _ _ => eq_refl)).
  - exact (told_last (fun v => c_acc (w_cfg v)) _ w os told_accumulator (fun _ => eq_refl) (fun _ _ => eq_refl)).
  - exact (told_last (fun v => c_minr (w_cfg v)) _ w os told_rounds (fun _ => eq_refl) (fun _ _ => eq_refl)).
  - exact (told_last (fun v => c_maxaddr (w_cfg v)) _ w os told_max_listed (fun _ => eq_refl) (fun _ _ => eq_refl)).
  - exact (told_last (fun v => c_maxsel (w_cfg v)) _ w os told_max_selected (fun _ => eq_refl) (fun _ _ => eq_refl)).
  - exact (told_last (fun v => c_unbond (w_cfg v)) _ w os told_period (fun _ => eq_refl) (fun _ _ => eq_refl)).
  - exact (told_last (fun v => c_migr (w_cfg v)) _ w os told_migration (fun _ => eq_refl) (fun _ _ => eq_refl)).
  - exact (told_last (fun v => c_score (w_cfg v)) _ w os told_scoring (fun _ => eq_refl) (fun _ _ => eq_refl)).
  - exact (told_last w_owner _ w os told_owner (fun _ => eq_refl) (fun _ _ => eq_refl)).
  - revert w. induction os as [|o os IH]; intros w; [done|]. cbn [run]. rewrite IH.
    destruct (may_change w o SRounds) eqn:B; [|exact (frame_step w o SRounds B)].
    destruct o; try discriminate B.
    + destruct ep; discriminate B.
    + cbn in B. destruct (nth_error (w_res w) i) as [[k r]|]; [|discriminate B]. destruct k as [| | | | |[] ? ?], r; discriminate B.
Qed.

Lemma records_last w os c :
  let v := run w os in
  (p_admin <$> w_pv v !! c) = default (p_admin <$> w_pv w !! c) (last_word (entry c (said_admin c)) w os)
  /\ (params_of <$> w_pv v !! c) = default (params_of <$> w_pv w !! c) (last_word (entry c (said_params c)) w os)
  /\ (p_elig <$> w_pv v !! c) = default (p_elig <$> w_pv w !! c) (last_word (entry c (said_eligible c)) w os).
Proof.
  cbv zeta. split_and!.
  - exact (told_last (fun v => p_admin <$> w_pv v !! c) _ w os (told_admin c) (fun _ => eq_refl) (fun _ _ => eq_refl)).
  - exact (told_last (fun v => params_of <$> w_pv v !! c) _ w os (told_params c) (fun _ => eq_refl) (fun _ _ => eq_refl)).
  - exact (told_last (fun v => p_elig <$> w_pv v !! c) _ w os (told_eligible c) (fun _ => eq_refl) (fun _ _ => eq_refl)).
Qed.
