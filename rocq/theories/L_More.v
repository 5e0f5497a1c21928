(** L_More.v — exact effect and availability of the remaining endpoints. *)
From Verif Require Export Spec2 L_Access L_Score.

(** * Stored configuration *)
Lemma store_effect w u eg pays ep :
  Reachable w -> stores_config ep = true -> snd (step w (OTx u eg pays ep)) = SOk ->
  let w' := fst (step w (OTx u eg pays ep)) in
  (u = w_owner w \/ (exists s, ep = SetScoringConfig s) /\ u ∈ c_mgrs (w_cfg w))
  /\ stored ep (w_cfg w) (w_cfg w') /\ only_config w w'.
Proof.
  intros Hr Ho Hs. pose proof (mgrs_nodup w Hr) as ND. cbn zeta. did_of w (OTx u eg pays ep) Hs; try discriminate Ho.
  - split; [by left|].
    clear Hs Ew. destruct ep; try done; cbn in *; subst;
      repeat match goal with H : _ /\ _ |- _ => destruct H; subst end; try (split; reflexivity).
    + split; [split; [reflexivity|]|reflexivity]. split_and!; [intros x; cbn; apply add_all_in|cbn; by apply add_all_nodup|cbn; apply add_all_app].
    + split; [split; [reflexivity|]|reflexivity]. cbn. split_and!.
      * intros x. by apply swap_remove_in.
      * by apply swap_remove_nodup.
      * apply swap_remove_nil.
      * intros l El. rewrite El in *. apply NoDup_app in ND as (_ & ND & _).
        rewrite swap_remove_split; [by rewrite app_nil_r|]. intros Hm. eapply ND; [exact Hm|by left].
      * intros l l' z El. rewrite El in *. apply NoDup_app in ND as (_ & ND & _).
        rewrite swap_remove_split; [|intros Hm; eapply ND; [exact Hm|by left]].
        destruct (l' ++ [z]) as [|y k] eqn:Ek; [by destruct l'|]. rewrite <- Ek, List.last_last, List.removelast_last. done.
  - split; [|split; reflexivity].
    match goal with H : manager_b _ _ = true |- _ => apply manager_spec in H as [H|H] end; [by left|].
    right. split; [by eexists|done].
Qed.

Lemma store_available w u ep :
  storable ep -> u <> SELF -> u = w_owner w \/ (exists s, ep = SetScoringConfig s) /\ u ∈ c_mgrs (w_cfg w) ->
  snd (step w (OTx u 0 [] ep)) = SOk.
Proof.
  intros Hst Hu Hw. unfold step, exec_tx.
  assert (E0 : (u =? SELF) = false) by lia. rewrite E0. cbn [negb require rbind pay_in].
  destruct Hw as [->|[[s ->] Hm]].
  - destruct ep; try discriminate Hst; cbn in Hst; cbn;
      unfold only_owner, owner_set, set_state, set_accumulator, set_fees, set_minimum_rounds, set_max_addresses, set_max_selected,
        set_unbond_period, add_managers, remove_manager, set_migration_sc, owner_set, only_owner; cbn;
      change (2 ^ 64) with U64 in *; change (2 ^ 32) with U32 in *.
    1,2,3,4: by rewrite N.eqb_refl.
    + assert (r <? U64 = true) as -> by lia. cbn. by rewrite N.eqb_refl.
    + assert (n <? U32 = true) as -> by lia. cbn. rewrite N.eqb_refl. cbn. assert (1 <=? n = true) as -> by lia. done.
    + rewrite N.eqb_refl. cbn. assert (1 <=? n = true) as -> by lia. done.
    + assert (p <? U64 = true) as -> by lia. cbn. by rewrite N.eqb_refl.
    + by rewrite N.eqb_refl.
    + by rewrite N.eqb_refl.
    + destruct Hst as (H1 & H2 & H3 & H4 & H5 & H6 & H7 & H8). assert (100 < U64) by reflexivity.
      assert ((k_min_nodes s <? U64) && (k_max_nodes s <? U64) && (k_min_apy s <? U64)
      && (k_max_apy s <? U64) && (k_stake_w s <? U64) && (k_apy_w s <? U64)
      && (k_nodes_w s <? U64) && (k_max_score s <? U64) && (k_exp s <? U64)
      && (k_apy_mul s <? U64) = true) as -> by lia.
      cbn. unfold set_scoring_config, is_manager, manager_b. cbn. rewrite N.eqb_refl, orb_true_r. cbn.
      unfold add64. rewrite (N.mod_small (k_stake_w s + k_apy_w s)) by lia.
      rewrite N.mod_small by lia. rewrite H8. done.
    + rewrite N.eqb_refl. cbn. by rewrite Hst.
  - cbn in Hst; cbn. change (2 ^ 64) with U64 in *.
    destruct Hst as (H1 & H2 & H3 & H4 & H5 & H6 & H7 & H8). assert (100 < U64) by reflexivity.
    assert ((k_min_nodes s <? U64) && (k_max_nodes s <? U64) && (k_min_apy s <? U64)
      && (k_max_apy s <? U64) && (k_stake_w s <? U64) && (k_apy_w s <? U64)
      && (k_nodes_w s <? U64) && (k_max_score s <? U64) && (k_exp s <? U64)
      && (k_apy_mul s <? U64) = true) as -> by lia.
    cbn. unfold set_scoring_config, is_manager, manager_b. cbn.
    apply existsb_in in Hm. rewrite Hm. cbn.
    unfold add64. rewrite (N.mod_small (k_stake_w s + k_apy_w s)) by lia.
    rewrite N.mod_small by lia. rewrite H8. done.
Qed.

(** * Asking providers for unbonded EGLD and for rewards *)
Lemma withdraw_pending_done w u eg pays c :
  snd (step w (OTx u eg pays (WithdrawPending c))) = SOk ->
  let w' := fst (step w (OTx u eg pays (WithdrawPending c))) in
  operator u w /\ is_Some (w_pv w !! c) /\ only_new_call (KWithd c) w w'.
Proof.
  intros Hs. cbn zeta. did_of w (OTx u eg pays (WithdrawPending c)) Hs. cbn in *.
  split_and!; try done.
  - split_and!; try done. match goal with H : manager_b _ _ = true |- _ => by apply manager_spec in H end.
  - unfold only_new_call, commit, called, emit, set_pool, set_log, set_calls, set_egld. cbn. by rewrite N.sub_0_r.
Qed.

Lemma claim_rewards_done w u eg pays :
  snd (step w (OTx u eg pays ClaimRewards)) = SOk ->
  let w' := fst (step w (OTx u eg pays ClaimRewards)) in
  operator u w /\ w_dl w <> [] /\ only_new_call (KClaim (w_dl w)) w w'.
Proof.
  intros Hs. cbn zeta. did_of w (OTx u eg pays ClaimRewards) Hs. cbn in *.
  split_and!; try done.
  - split_and!; try done. match goal with H : manager_b _ _ = true |- _ => by apply manager_spec in H end.
  - unfold only_new_call, commit, called, emit, set_pool, set_log, set_calls, set_egld. cbn. by rewrite N.sub_0_r.
Qed.

Lemma withdraw_pending_available w u c :
  operator u w -> is_Some (w_pv w !! c) -> snd (step w (OTx u 0 [] (WithdrawPending c))) = SOk.
Proof.
  intros Hop [p Hp]. pose proof (operator_manager _ _ Hop) as Hm. destruct Hop as (Hu & Hw & Hl & Ha).
  unfold step, exec_tx. assert (E0 : (u =? SELF) = false) by lia. rewrite E0. cbn.
  unfold withdraw_pending, cache_new, ls_token_id, is_state_active, is_manager, manager_b in *. cbn in *. rewrite Hl. cbn. rewrite Hm. cbn. rewrite Ha. cbn. rewrite Hp. cbn.
  unfold register, take_egld. cbn. by destruct (0 <=? w_egld w + 0) eqn:B; [|lia].
Qed.

Lemma claim_rewards_available w u :
  operator u w -> w_dl w <> [] -> snd (step w (OTx u 0 [] ClaimRewards)) = SOk.
Proof.
  intros Hop Hd. pose proof (operator_manager _ _ Hop) as Hm. destruct Hop as (Hu & Hw & Hl & Ha).
  unfold step, exec_tx. assert (E0 : (u =? SELF) = false) by lia. rewrite E0. cbn.
  unfold claim_rewards, cache_new, ls_token_id, is_state_active, is_manager, manager_b in *. cbn in *. rewrite Hl. cbn. rewrite Hm. cbn. rewrite Ha. cbn. destruct (w_dl w); [done|]. cbn.
  unfold register, take_egld. cbn. by destruct (0 <=? w_egld w + 0) eqn:B; [|lia].
Qed.

(** every provider holding stake of the contract is in the list that is asked *)
Lemma staked_listed w c p :
  Reachable w -> w_pv w !! c = Some p -> 0 < p_staked p + p_unstaked p + p_pst p + p_pun p ->
  c ∈ w_dl w /\ c ∈ w_ul w.
Proof.
  intros HR Hp Hs. pose proof (lists _ HR) as L. destruct L.
  destruct (decide (c ∈ w_dl w)) as [H|H]; [split; [done|by apply l_same]|].
  destruct (l_unlisted _ _ Hp H) as (?&?&?&?). lia.
Qed.

(** * Rewards sent in *)
Lemma add_rewards_done w u eg pays :
  snd (step w (OTx u eg pays AddRewards)) = SOk ->
  let w' := fst (step w (OTx u eg pays AddRewards)) in
  pays = []
  /\ virtual_reserve w' = virtual_reserve w + eg /\ pending_egld w' = pending_egld w + eg
  /\ contract_egld w' = contract_egld w + eg /\ ls_supply w' = ls_supply w
  /\ unstake_queue w' = unstake_queue w /\ unbonding w' = unbonding w
  /\ total_withdrawn w' = total_withdrawn w /\ fees_reserve w' = fees_reserve w
  /\ w_ls w' = w_ls w /\ rest_unchanged w w' /\ ust_unchanged w w'.
Proof.
  intros Hs. cbn zeta. did_of w (OTx u eg pays AddRewards) Hs. subst_pools. cbn in *.
  unfold rest_unchanged, ust_unchanged, virtual_reserve, pending_egld, contract_egld, ls_supply, unstake_queue, unbonding,
    total_withdrawn, fees_reserve. cbn. split_and!; try done; lia.
Qed.

Lemma add_rewards_available w u eg :
  u <> SELF -> c_lstok (w_cfg w) = TIssued -> snd (step w (OTx u eg [] AddRewards)) = SOk.
Proof.
  intros Hu Hl. unfold step, exec_tx. assert (E0 : (u =? SELF) = false) by lia. rewrite E0. cbn.
  unfold payment_ok. cbn. rewrite orb_true_r. cbn. unfold add_rewards, cache_new, ls_token_id. cbn. by rewrite Hl.
Qed.

(** * Provider admins *)
Lemma change_admin_done w u eg pays c a :
  snd (step w (OTx u eg pays (ChangeAdmin c a))) = SOk ->
  let w' := fst (step w (OTx u eg pays (ChangeAdmin c a))) in
  (u = w_owner w \/ u ∈ c_mgrs (w_cfg w)) /\ only_record w w'
  /\ exists p, w_pv w !! c = Some p
  /\ w_pv w' = <[c := Prov a (p_total p) (p_cap p) (p_nodes p) (p_apy p) (p_staked p) (p_unstaked p) (p_elig p) (p_pst p) (p_pun p)]> (w_pv w).
Proof.
  intros Hs. cbn zeta. did_of w (OTx u eg pays (ChangeAdmin c a)) Hs. cbn in *.
  split_and!; [|reflexivity|by exists p].
  match goal with H : manager_b _ _ = true |- _ => by apply manager_spec in H end.
Qed.

Lemma change_admin_available w u c a :
  u <> SELF -> u = w_owner w \/ u ∈ c_mgrs (w_cfg w) -> is_Some (w_pv w !! c) ->
  snd (step w (OTx u 0 [] (ChangeAdmin c a))) = SOk.
Proof.
  intros Hu Hw [p Hp]. unfold step, exec_tx. assert (E0 : (u =? SELF) = false) by lia. rewrite E0. cbn.
  unfold change_admin. cbn. rewrite Hp. cbn. unfold is_manager, manager_b. cbn.
  assert (existsb (N.eqb u) (c_mgrs (w_cfg w)) || (u =? w_owner w) = true) as ->.
  { destruct Hw as [->|Hw]; [by rewrite N.eqb_refl, orb_true_r|]. apply existsb_in in Hw. by rewrite Hw. }
  cbn. unfold upd_prov, get_prov. cbn. by rewrite Hp.
Qed.

(** * Token issue *)
Lemma register_done w u eg pays (ls : bool) :
  let o := OTx u eg pays (if ls then RegisterLsToken else RegisterUnstakeToken) in
  snd (step w o) = SOk ->
  let w' := fst (step w o) in
  u = w_owner w /\ pays = []
  /\ (if ls then c_lstok (w_cfg w) = TNotSet /\ c_lstok (w_cfg w') = TPending /\ c_usttok (w_cfg w') = c_usttok (w_cfg w)
      else c_usttok (w_cfg w) = TNotSet /\ c_usttok (w_cfg w') = TPending /\ c_lstok (w_cfg w') = c_lstok (w_cfg w))
  /\ only_new_call (KIssue ls u eg) (set_cfg (w_cfg w') w) w'.
Proof.
  cbn zeta. destruct ls; intros Hs.
  - did_of w (OTx u eg pays RegisterLsToken) Hs. cbn in *. split_and!; try done.
  - did_of w (OTx u eg pays RegisterUnstakeToken) Hs. cbn in *. split_and!; try done.
Qed.

Lemma register_available w u eg (ls : bool) :
  u <> SELF -> u = w_owner w -> (if ls then c_lstok (w_cfg w) else c_usttok (w_cfg w)) = TNotSet ->
  snd (step w (OTx u eg [] (if ls then RegisterLsToken else RegisterUnstakeToken))) = SOk.
Proof.
  intros Hu -> Ht. unfold step, exec_tx. assert (E0 : (w_owner w =? SELF) = false) by lia.
  destruct ls; rewrite E0; cbn; unfold payment_ok; cbn; rewrite orb_true_r; cbn;
    unfold register_ls_token, register_unstake_token, only_owner; cbn; rewrite N.eqb_refl; cbn; rewrite Ht;
    unfold register, take_egld; cbn; assert (eg <=? w_egld w + eg = true) as -> by lia; rewrite N.eqb_refl; done.
Qed.

Lemma issue_answered w i (ls : bool) u a v :
  nth_error (w_res w) i = Some (KIssue ls u a, RDone v) ->
  snd (step w (OCb i)) = SOk
  /\ let w' := fst (step w (OCb i)) in
  (if ls then c_lstok (w_cfg w') = TIssued /\ c_usttok (w_cfg w') = c_usttok (w_cfg w)
   else c_usttok (w_cfg w') = TIssued /\ c_lstok (w_cfg w') = c_lstok (w_cfg w))
  /\ contract_egld w' = contract_egld w /\ w_log w' = [].
Proof.
  intros K. cb_step K. cbn. unfold callback, issue_callback. destruct ls; cbn; rewrite N.add_0_r; done.
Qed.

Lemma issue_refused w i (ls : bool) u a :
  nth_error (w_res w) i = Some (KIssue ls u a, RFail) ->
  snd (step w (OCb i)) = SOk
  /\ let w' := fst (step w (OCb i)) in
  (if ls then c_lstok (w_cfg w') = TNotSet /\ c_usttok (w_cfg w') = c_usttok (w_cfg w)
   else c_usttok (w_cfg w') = TNotSet /\ c_lstok (w_cfg w') = c_lstok (w_cfg w))
  /\ contract_egld w' = contract_egld w /\ egld_sent u w' = a.
Proof.
  intros K. cb_step K. cbn. unfold callback, issue_callback, send_egld, take_egld.
  destruct (0 <? a) eqn:B.
  - destruct ls; cbn; assert (a <=? w_egld w + a = true) as -> by lia; cbn;
      unfold contract_egld, egld_sent; cbn; rewrite N.eqb_refl; split_and!; try done; lia.
  - assert (a = 0) as -> by lia. unfold contract_egld, egld_sent. destruct ls; cbn; split_and!; try done; lia.
Qed.

(** * Payments *)
Lemma payments w u eg pays ep :
  snd (step w (OTx u eg pays ep)) = SOk -> payment_fits ep eg pays.
Proof.
  intros Hs. did_of w (OTx u eg pays ep) Hs; try done; try (cbn; done); try (cbn in *; destruct ep; done).
  - cbn. split; [done|]. exists x. done.
  - cbn. split; [done|]. eapply List.Forall_impl; [|eassumption]. intros p (n & e & r & K1 & K2 & _). split; [done|by exists n].
Qed.
