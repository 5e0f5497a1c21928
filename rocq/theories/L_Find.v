(** L_Find.v — findings: lemmas behind the refuted properties and the parts of
    them that hold. *)
From Verif Require Export L_Net L_Access L_User.

(** * C46 re-entrance *)
Lemma fees_with_inv f w w' :
  claim_fees_with f w = Ok w' ->
  exists w3, f (emit (XDeposit (c_acc (w_cfg w)) (fees_res (w_pool w))) (set_egld (w_egld w - fees_res (w_pool w)) w)) = Ok w3
    /\ w' = commit (set_fees_res 0 (w_pool w)) w3.
Proof.
  unfold claim_fees_with. intros H. apply rbind_ok in H as [c [E H]]. apply cache_new_ok in E as [E ->].
  apply rbind_ok in H as [[] [_ H]]. apply rbind_ok in H as [[] [_ H]]. apply rbind_ok in H as [w1 [E1 H]].
  unfold take_egld in E1. destruct (_ <=? _); [|done]. injection E1 as <-.
  apply rbind_ok in H as [w3 [E3 H]]. injection H as <-. by exists w3.
Qed.

Lemma reentrance_iff w ops w' :
  Reachable w -> claim_fees_with (fun v => Ok (run v ops)) (set_log [] w) = Ok w' ->
  (ls_supply w' = ls_in_existence w' <-> ls_in_existence w' = ls_in_existence w)
  /\ w_pool w' = set_fees_res 0 (w_pool w).
Proof.
  intros Hr H. apply fees_with_inv in H as (w3 & E & ->). split; [|done].
  pose proof (a_supply _ (acct w Hr)) as Hs. unfold total_ls in Hs. unfold ls_supply, ls_in_existence in *. cbn. rewrite <- Hs. split; congruence.
Qed.

(** * C47 a provider without room blocks the head of the list *)
Lemma blocked_first w u eg pays o c r p :
  w_dl w = c :: r -> w_pv w !! c = Some p -> p_elig p = true -> p_cap p <> 0 ->
  p_cap p < p_staked p + p_pst p - p_pun p ->
  snd (step w (OTx u eg pays (DelegatePending o))) <> SOk.
Proof.
  intros Hl Hp He Hc Hn Hs. did_of w (OTx u eg pays (DelegatePending o)) Hs.
  match goal with K : get_delegation_contract _ _ _ _ _ _ _ = _ |- _ => revert K end. cbn. rewrite Hl.
  unfold get_delegation_contract. cbn [length]. intros K. apply rbind_ok in K as [[] [_ K]].
  apply rbind_ok in K as [[sel tot] [K _]]. unfold select_deleg in K. apply rbind_ok in K as [m [_ K]].
  cbn [sel_deleg_loop] in K. unfold get_prov in K. rewrite Hp in K. cbn [rbind] in K. unfold prov_eligible in K.
  rewrite He in K. cbn [negb] in K. destruct (p_cap p =? 0) eqn:B; [lia|]. apply rbind_ok in K as [b [K _]].
  apply rbind_ok in K as [a' [Ea K]]. apply rbind_ok in K as [d [Ed _]].
  apply L_Base.sub_ok in Ea as [_ ->]. apply L_Base.sub_ok in Ed as [Ed _]. lia.
Qed.

(** * C48 the limit of the list *)
Definition wh (k : call) : N := match k with KWhite _ _ _ => 1 | _ => 0 end.
Definition Lim (M K : N) (w : world) : Prop := N.of_nat (length (w_dl w)) + sumN (map wh (unanswered w)) <= M + K.

Lemma wh_none ks : Forall (fun k => wh k = 0) ks -> sumN (map wh ks) = 0.
Proof. induction 1 as [|k ks H _ IH]; [done|]. cbn. by rewrite H, IH. Qed.

Lemma wh_new ks w : sumN (map wh ((w_calls w ++ ks) ++ map fst (w_res w))) = sumN (map wh ks) + sumN (map wh (unanswered w)).
Proof. rewrite (L_Tok.sumN_perm wh _ _ (unans_new ks w)), map_app, sumN_app. done. Qed.

Lemma wh_take w i k r : nth_error (w_res w) i = Some (k, r) ->
  sumN (map wh (unanswered w)) = wh k + sumN (map wh (w_calls w ++ map fst (drop_nth i (w_res w)))).
Proof. intros H. by rewrite (L_Tok.sumN_perm wh _ _ (unans_cb _ _ _ _ H)). Qed.

Lemma to_back_length ds l : NoDup l -> map d_addr ds `sublist_of` l -> length (to_back ds l) = length l.
Proof.
  intros Hn Hs. apply Permutation_length, NoDup_Permutation; [by apply to_back_nodup|done|].
  intros x. apply to_back_in. by apply sublist_addrs.
Qed.

Lemma lim_did M K w o w' s : Lists w -> whitelisting_within M K w o -> Lim M K w -> did w o w' s -> Lim M K w'.
Proof.
  intros L [HM Ho] HI D. destruct D; try exact HI;
    try (match goal with N : nth_error (w_res w) ?i = Some _ |- _ => pose proof (wh_take _ _ _ _ N) as HT end;
    unfold Lim in *; cbn in *; unfold unanswered in *; cbn in *; try lia).
  - um_clean. exact HI.
  - unfold Lim in *. cbn. unfold unanswered. cbn. rewrite wh_new, wh_none, to_back_length; [exact HI|apply L|done|].
    apply Forall_map, List.Forall_forall. done.
  - unfold Lim in *. cbn. unfold unanswered. cbn. rewrite wh_new, wh_none; [exact HI|].
    apply Forall_map, List.Forall_forall. done.
  - unfold Lim in *. cbn. unfold unanswered. cbn. rewrite wh_new. exact HI.
  - unfold Lim in *. cbn. unfold unanswered. cbn. rewrite wh_new. exact HI.
  - unfold Lim in *. cbn. unfold unanswered. cbn. rewrite wh_new. cbn in *. unfold whitelisting in Ho.
    change (sumN (map wh (unanswered w)) < K) in Ho. lia.
  - unfold Lim in *. cbn. unfold unanswered. cbn. rewrite wh_new. exact HI.
  - unfold Lim in *. cbn. unfold unanswered. cbn. rewrite wh_new. exact HI.
  - match goal with K : exec_call _ _ _ = _, N : nth_error _ _ = _ |- _ =>
      destruct (exec_call_frame _ _ _ _ _ K) as [lv ->]; unfold Lim in *; cbn; unfold unanswered; cbn;
      rewrite (L_Tok.sumN_perm wh _ _ (unans_exec _ _ r _ N)) end. exact HI.
  - unfold set_insert. destruct (existsb _ _); [lia|]. rewrite app_length. cbn. lia.
Qed.

Lemma set_log_unans l w : unanswered (set_log l w) = unanswered w. Proof. done. Qed.

Lemma lim_step M K w o : Reachable w -> whitelisting_within M K w o -> Lim M K w -> Lim M K (fst (step w o)).
Proof.
  intros Hr Ho HI. apply (lim_did M K (set_log [] w) o _ (snd (step w o))); [exact (lists w Hr)|exact Ho|exact HI|apply step_did].
Qed.

Lemma lim_run M K w os : Reachable w -> Lim M K w -> along (whitelisting_within M K) w os -> Lim M K (run w os).
Proof.
  revert w. induction os as [|o os IH]; intros w Hr HN Ha; [done|]. destruct Ha as [H1 H2]. cbn [run].
  apply IH; [by apply reach_step|by apply lim_step|done].
Qed.

Lemma lim_history M K w os :
  Deployed w -> along (whitelisting_within M K) w os ->
  N.of_nat (length (w_dl (run w os))) + whitelisting (run w os) <= M + K.
Proof.
  intros Hd Ha. assert (Lim M K w) as HL.
  { destruct Hd as (? & ? & ? & ? & ? & ? & ? & ? & ? & H). unfold deploy in H.
    apply rbind_ok in H as [[] [E H]]. apply rbind_ok in H as [g [E1 H]]. rstep H. unfold Lim. cbn. lia. }
  pose proof (lim_run M K w os (deployed_reach w Hd) HL Ha) as H. exact H.
Qed.

(** * C49 reserve without supply *)
Definition Stuck (w : world) : Prop := ls_supply w = 0 /\ 0 < virtual_reserve w.

Lemma stuck_mint a c : supply c = 0 -> 0 < reserve c -> minted a c = 0.
Proof. intros H1 H2. unfold minted. destruct (0 <? reserve c) eqn:B; [|lia]. rewrite H1, N.mul_0_r. by apply N.div_0_l; lia. Qed.

Lemma stuck_did w o w' s : Stuck w -> did w o w' s -> Stuck w'.
Proof.
  intros [H1 H2] D. unfold ls_supply, virtual_reserve, Stuck in *.
  destruct D; subst_pools; try (split; cbn; (exact H1 || exact H2 || lia));
    try (match goal with K : 0 < minted _ _ |- _ => rewrite stuck_mint in K by done; lia end).
  - match goal with K : exec_call _ _ _ = _ |- _ => destruct (exec_call_frame _ _ _ _ _ K) as [lv ->] end. by split.
Qed.

Lemma stuck_run w os : Stuck w -> Stuck (run w os).
Proof.
  revert w. induction os as [|o os IH]; intros w H; [exact H|]. cbn [run]. apply IH.
  exact (stuck_did (set_log [] w) _ _ _ H (step_did w o)).
Qed.

Lemma stuck_forever w os u a pays :
  ls_supply w = 0 -> 0 < virtual_reserve w ->
  ls_supply (run w os) = 0 /\ snd (step (run w os) (OTx u a pays Delegate)) <> SOk.
Proof.
  intros H1 H2. destruct (stuck_run w os (conj H1 H2)) as [H3 H4]. split; [exact H3|]. intros Hs.
  did_of (run w os) (OTx u a pays Delegate) Hs. subst c. cbn in *. rewrite stuck_mint in * by done. lia.
Qed.

Definition Lively (w : world) : Prop := 0 < virtual_reserve w -> 0 < ls_supply w.

Lemma full_redeem c : 0 < supply c -> redeemed (supply c) c = reserve c.
Proof. intros H. unfold redeemed. rewrite N.mul_comm. apply N.div_mul. lia. Qed.

Lemma lively_did w o w' s : Acct w -> (brings_rewards w o -> 0 < ls_supply w) -> Lively w -> did w o w' s -> Lively w'.
Proof.
  intros A Hb HI D. unfold Lively, ls_supply, virtual_reserve in *.
  destruct D; subst_pools; try (cbn in *; lia).
  - match goal with K : 0 < minted a _ |- _ => unfold delegate_pool, pool_plus, minted in *; cbn in *; lia end.
  - um_clean. cbn in *. destruct (N.eq_dec x (supply (w_pool w))) as [->|]; [|lia]. rewrite full_redeem by lia. lia.
  - match goal with K : exec_call _ _ _ = _ |- _ => destruct (exec_call_frame _ _ _ _ _ K) as [lv ->] end. exact HI.
  - cbn in Hb. match goal with K : nth_error _ _ = _ |- _ => rewrite K in Hb end. cbn. auto.
Qed.

Lemma lively_run w os : Reachable w -> Lively w -> along (fun v o => brings_rewards v o -> 0 < ls_supply v) w os ->
  Lively (run w os) /\ Reachable (run w os).
Proof.
  revert w. induction os as [|o os IH]; intros w Hr HN Ha; [done|]. destruct Ha as [H1 H2]. cbn [run].
  apply IH; [by apply reach_step| |done].
  apply (lively_did (set_log [] w) o _ (snd (step w o))); [|exact H1|exact HN|apply step_did].
  destruct (acct w Hr). by split.
Qed.

Lemma deploy_pool w : Deployed w -> w_pool w = Pool 0 0 0 0 0 0 0.
Proof.
  intros (? & ? & ? & ? & ? & ? & ? & ? & ? & H). unfold deploy in H.
  apply rbind_ok in H as [[] [E H]]. apply rbind_ok in H as [g [E1 H]]. by rstep H.
Qed.

Lemma deposits_stay_open w os u a :
  Deployed w -> along (fun v o => brings_rewards v o -> 0 < ls_supply v) w os ->
  let v := run w os in
  c_lstok (w_cfg v) = TIssued -> c_active (w_cfg v) = true -> u <> SELF -> ONE_EGLD <= a ->
  virtual_reserve v <= a * ls_supply v ->
  snd (step v (OTx u a [] Delegate)) = SOk.
Proof.
  intros Hd Ha v HI Hact Hu Hone Hbig.
  destruct (lively_run w os (deployed_reach w Hd)) as [HL Hr]; [|exact Ha|].
  { unfold Lively, virtual_reserve. rewrite (deploy_pool w Hd). cbn. lia. }
  fold v in HL, Hr. unfold Lively, virtual_reserve, ls_supply in *.
  apply (delegate_full v u a (minted a (w_pool v))); try done. apply view_egld_value_ok; [done|].
  unfold minted. destruct (0 <? reserve (w_pool v)) eqn:B; [|change ONE_EGLD with MIN_EGLD in Hone; pose proof MIN_pos; lia].
  assert (1 <= a * supply (w_pool v) / reserve (w_pool v)) by (apply N.div_le_lower_bound; lia). lia.
Qed.

Lemma supply_stays w os :
  Deployed w -> along (fun v o => brings_rewards v o -> 0 < ls_supply v) w os ->
  0 < virtual_reserve (run w os) -> 0 < ls_supply (run w os).
Proof.
  intros Hd Ha. destruct (lively_run w os (deployed_reach w Hd)) as [HL Hr]; [|exact Ha|exact HL].
  unfold Lively, virtual_reserve. rewrite (deploy_pool w Hd). cbn. lia.
Qed.

(** * C47 a change of parameters that leaves room *)
Lemma change_within w u eg pays c total cap nodes apy elig v o sc :
  let w' := fst (step w (OTx u eg pays (ChangeParams c total cap nodes apy elig))) in
  Reachable w -> snd (step w (OTx u eg pays (ChangeParams c total cap nodes apy elig))) = SOk ->
  operator v w -> fits_queue o (pending_egld w) ->
  c_score (w_cfg w) = Some sc -> distinct_bounds sc -> N.of_nat (length (w_dl w)) < 2 ^ 32 ->
  (forall d p, d ∈ w_dl w -> w_pv w !! d = Some p -> within_cap p) ->
  (exists d p, d <> c /\ d ∈ w_dl w /\ w_pv w !! d = Some p /\ has_room p) ->
  (forall p, w_pv w !! c = Some p -> elig = false \/ p_pun p <= p_staked p + p_pst p /\ (cap = 0 \/ net_stake p <= cap)) ->
  snd (step w' (OTx v 0 [] (DelegatePending o))) = SOk.
Proof.
  intros w' Hr Hs Hop Hq Hsc Hd Hl HW (d & p & Hdc & Hin & Hp & Hroom) Hnew.
  assert (Hr' : Reachable w') by (by apply reach_step).
  assert (exists q, w_pv w !! c = Some q /\ w' = set_pv (<[c := with_params total cap nodes apy elig q]> (w_pv w)) (set_log [] w))
    as (q & Hq0 & Ew').
  { subst w'. did_of w (OTx u eg pays (ChangeParams c total cap nodes apy elig)) Hs. eexists. split; [eassumption|done]. }
  apply (deleg_batch_works w' v o sc Hr'); rewrite Ew' in *; try done.
  - intros e x He. cbn in *. destruct (N.eq_dec e c) as [->|Hne].
    + rewrite lookup_insert. intros [= <-]. destruct (Hnew q Hq0) as [->|K]; [by left|]. right. exact K.
    + rewrite lookup_insert_ne by done. by apply HW.
  - exists d, p. cbn. rewrite lookup_insert_ne by done. done.
Qed.

(** * C50 weights *)
Lemma weights w u eg pays s :
  snd (step w (OTx u eg pays (SetScoringConfig s))) = SOk ->
  (k_stake_w s + k_apy_w s + k_nodes_w s) mod 2 ^ 64 = 100
  /\ (k_stake_w s + k_apy_w s + k_nodes_w s < 2 ^ 64 -> k_stake_w s + k_apy_w s + k_nodes_w s = 100).
Proof.
  intros Hs. assert (K : (k_stake_w s + k_apy_w s + k_nodes_w s) mod 2 ^ 64 = 100).
  { did_of w (OTx u eg pays (SetScoringConfig s)) Hs. unfold add64 in *.
    rewrite N.add_mod_idemp_l in * by done. done. }
  split; [exact K|]. intros H. by rewrite N.mod_small in K.
Qed.

(** * C52 the reward callback *)
Lemma reward_iff w i l v :
  Reachable w -> nth_error (w_res w) i = Some (KClaim l, RDone v) ->
  snd (step w (OCb i)) = SOk <-> v * c_fees (w_cfg w) / 10000 <= v.
Proof.
  intros Hr Hn. split; [apply (cb_claim w i l v Hn)|]. intros Hf.
  pose proof (res_unanswered _ _ _ _ Hn) as Hk. pose proof (fly_issued _ _ Hr Hk eq_refl) as HI.
  cb_step Hn. cbn [callback attached is_done]. unfold claim_rewards_callback.
  destruct (0 <? v) eqn:B; [|done]. unfold cache_new, ls_token_id. cbn. rewrite HI. cbn.
  unfold calculate_share. by rewrite L_Batch.sub_ok.
Qed.

(** * C53 EGLD in no pot *)
Lemma unaccounted_tx w u eg pays ep :
  Reachable w -> snd (step w (OTx u eg pays ep)) = SOk ->
  unaccounted (fst (step w (OTx u eg pays ep)))
  = unaccounted w + match ep with Withdraw => eg | _ => 0 end.
Proof.
  intros Hr Hs. pose proof (a_egld _ (acct w Hr)) as HA.
  pose proof (a_egld _ (acct _ (reach_step w (OTx u eg pays ep) Hr))) as HA'.
  unfold unaccounted, contract_egld, pending_egld, total_withdrawn, fees_reserve.
  did_of w (OTx u eg pays ep) Hs; subst_pools; try (cbn in *; lia).
  - clear Ew. pose proof (split_facts (pfu (w_pool w)) eg). cbn in *. lia.
  - clear Ew. um_clean. subst e i r. pose proof (split_facts (pend (w_pool w)) (redeemed x (w_pool w))) as HF. cbn in *.
    destruct (split_of (pend (w_pool w)) (redeemed x (w_pool w))) as [i r]. cbn in *. lia.
  - clear Ew. destruct ep; done || (cbn in *; lia).
Qed.

(** * C55 less than 1 EGLD left at the head of the list *)
Lemma maxp_inv a maxsel len m :
  calc_max_providers a maxsel len = Ok m -> m * MIN_EGLD <= a.
Proof.
  unfold calc_max_providers, div. destruct (MIN_EGLD =? 0) eqn:B; [done|]. cbn [rbind]. unfold to_usize.
  destruct (_ <? U64) eqn:B1; [|done]. intros [= <-].
  assert (N.min (N.min (a / MIN_EGLD) maxsel) len mod U32 <= a / MIN_EGLD).
  { etrans; [by apply N.mod_le|]. lia. }
  assert (MIN_EGLD * (a / MIN_EGLD) <= a) by (by apply N.mul_div_le). nia.
Qed.

Lemma blocked_undel w u eg pays o c r p :
  w_ul w = c :: r -> w_pv w !! c = Some p -> p_pun p < p_staked p + p_pst p ->
  p_staked p + p_pst p < p_pun p + ONE_EGLD ->
  snd (step w (OTx u eg pays (UnDelegatePending o))) <> SOk.
Proof.
  intros Hl Hp H0 H1 Hs. pose proof MIN_pos as HM. change ONE_EGLD with MIN_EGLD in H1.
  did_of w (OTx u eg pays (UnDelegatePending o)) Hs.
  match goal with K : get_delegation_contract _ _ _ _ _ _ _ = _, B : batch_amount _ _ = _ |- _ =>
    revert K; apply batch_amount_inv in B as (Hmin & _ & _) end. cbn. rewrite Hl.
  unfold get_delegation_contract. intros K. apply rbind_ok in K as [[] [_ K]].
  apply rbind_ok in K as [[sel tot] [K K2]]. unfold select_undel in K. apply rbind_ok in K as [m [Em K]].
  apply rbind_ok in K as [pa [Ea K]]. apply rbind_ok in K as [pm [Epm K]]. apply rbind_ok in K as [av [Eav K]].
  apply maxp_inv in Em. unfold div in Epm, Eav. destruct (m =? 0) eqn:Bm; [done|]. injection Epm as <-.
  change (2 =? 0) with false in Eav. injection Eav as <-.
  assert (MIN_EGLD <= a / m) by (apply N.div_le_lower_bound; lia).
  assert (Havg : 0 < (a / m + pa) / 2).
  { apply N.lt_le_trans with 1; [lia|]. apply N.div_le_lower_bound; [done|]. assert (H2' : 2 <= MIN_EGLD) by done.
    match goal with K : MIN_EGLD <= a / m |- _ => clear -K H2' end. generalize dependent (a / m). intros. lia. }
  revert K Havg. generalize ((a / m + pa) / 2). intros avg K Havg.
  assert (Hav : avail p = Ok (p_staked p + p_pst p - p_pun p)) by (unfold avail; rewrite L_Batch.sub_ok by lia; done).
  assert (Hsel : sel = [] \/ exists i is, sel = i :: is /\ i_avail i = p_staked p + p_pst p - p_pun p).
  { cbn [sel_undel_loop] in K. apply rbind_ok in K as [h [_ K]].
    destruct (h <=? 0); [left; by injection K as <- <-|]. destruct ((m <=? 0) && _); [left; by injection K as <- <-|].
    unfold get_prov in K. rewrite Hp in K. cbn [rbind] in K. rewrite Hav in K. cbn [rbind] in K.
    apply rbind_ok in K as [t [Et K]]. destruct (take_ok (p_staked p + p_pst p - p_pun p) avg) as (t' & Et' & Ht & _).
    rewrite Et in Et'. injection Et' as <-. destruct (0 <? t) eqn:Bt; [|specialize (Ht Havg ltac:(lia)); lia].
    apply rbind_ok in K as [i [Ei K]]. apply rbind_ok in K as [rm [_ K]]. apply rbind_ok in K as [[is t'] [_ K]].
    injection K as <- _. right. exists i, is. split; [done|].
    unfold mk_info in Ei. apply rbind_ok in Ei as [sp [_ Ei]]. rewrite Hav in Ei. injection Ei as <-. done. }
  apply rbind_ok in K2 as [[] [Ene K2]]. destruct Hsel as [->|(i & is & -> & Hi)]; [done|].
  apply rbind_ok in K2 as [sc [_ K2]]. apply rbind_ok in K2 as [[ds' rem] [K2 _]].
  unfold distribute_amount in K2. apply rbind_ok in K2 as [[l' T] [Esc K2]]. apply rbind_ok in K2 as [[ds2 rem2] [K2 _]].
  destruct (score_all_addr _ _ _ _ _ _ Esc) as [_ Hm]. destruct l' as [|i' l']; [done|]. cbn in Hm. injection Hm as Hi' _.
  cbn [distribute_loop] in K2. apply rbind_ok in K2 as [x [Ex _]]. unfold provider_amount in Ex.
  apply rbind_ok in Ex as [pr [_ Ex]]. apply rbind_ok in Ex as [lft [Ex _]]. apply L_Base.sub_ok in Ex as [Ex _]. lia.
Qed.

(** * C56 one batch and the cap *)
Lemma cap_one_batch w u eg pays o c p p' :
  Reachable w -> snd (step w (OTx u eg pays (DelegatePending o))) = SOk ->
  w_pv w !! c = Some p -> w_pv (fst (step w (OTx u eg pays (DelegatePending o)))) !! c = Some p' ->
  p_pst p' <> p_pst p -> p_cap p <> 0 ->
  p_pst p' <= p_pst p + (p_cap p - p_total p) /\ net_stake p + ONE_EGLD <= p_cap p
  /\ net_stake p' + p_total p + ONE_EGLD <= 2 * p_cap p.
Proof.
  intros Hr Hs Hp Hp' Hne Hc. pose proof (lists w Hr) as L. pose proof (cfgok w Hr) as (_ & _ & HC).
  pose proof (caps_at _ _ _ HC Hp) as Hcap.
  did_of w (OTx u eg pays (DelegatePending o)) Hs. cbn in *. rewrite add_psts_lookup, Hp in Hp'. cbn in Hp'. injection Hp' as <-.
  cbn in *.
  assert (HN : NoDup (map d_addr ds)) by (eapply sublist_nodup; [eassumption|apply L]).
  destruct (decide (c ∈ map d_addr ds)) as [Hin|Hno]; [|rewrite dtos_none in Hne by done; lia].
  destruct (dtos_one c ds HN Hin) as (d & Hd & <- & Ed).
  match goal with H : Forall (deleg_sel_ok _) _ |- _ => rewrite list.Forall_forall in H; destruct (H d Hd) as (q & Hq & He & Ha & Hcc) end.
  rewrite Hp in Hq. injection Hq as <-. rewrite Ed. unfold net_stake. cbn. change ONE_EGLD with MIN_EGLD.
  destruct Hcc as [|[Hc1 Hc2]]; [lia|]. destruct Hcap as [|]; lia.
Qed.

(** * C57 a whitelisting is settled *)
Lemma white_settled w i c a u r :
  Reachable w -> c_lstok (w_cfg w) = TIssued -> nth_error (w_res w) i = Some (KWhite c a u, r) ->
  virtual_reserve w = 0 \/ virtual_reserve w <= a * ls_supply w ->
  let w' := fst (step w (OCb i)) in
  snd (step w (OCb i)) = SOk
  /\ ((r = RFail /\ w_pv w' !! c = None /\ egld_sent u w' = a /\ w_pool w' = w_pool w)
      \/ (r <> RFail /\ (exists p, w_pv w' !! c = Some p /\ p_staked p = a) /\ virtual_reserve w' = virtual_reserve w + a
          /\ exists m, 0 < m /\ ls_balance u w' = ls_balance u w + m /\ ls_supply w' = ls_supply w + m)).
Proof.
  intros Hr HI Hn Hbig w'.
  assert (Hpos : 0 < a).
  { pose proof (who w Hr) as HW. rewrite list.Forall_forall in HW. specialize (HW _ (res_unanswered _ _ _ _ Hn)). cbn in HW.
    pose proof MIN_pos. lia. }
  destruct r as [|v].
  - destruct (cb_white_failed w i c a u HI Hn) as (H1 & H2 & H3 & H4 & _). split; [exact H1|]. left. split_and!; [done| | |exact H4].
    + unfold w'. rewrite H2. apply lookup_delete.
    + unfold w'. rewrite H3. by rewrite N.eqb_refl.
  - assert (Hm : 0 < minted a (w_pool w)).
    { unfold minted. unfold virtual_reserve, ls_supply in Hbig. destruct (0 <? reserve (w_pool w)) eqn:B; [|lia].
      assert (1 <= a * supply (w_pool w) / reserve (w_pool w)) by (apply N.div_le_lower_bound; lia). lia. }
    destruct (cb_white_ok w i c a u v (minted a (w_pool w)) Hr Hn) as (H1 & _ & _ & _ & (p & _ & _ & H2) & H3 & H4 & H5 & _); [by apply view_egld_value_ok|].
    split; [exact H1|]. right. split_and!; [done| |exact H4|].
    + exists (set_p_staked a p). unfold w'. rewrite H2. split; [apply lookup_insert|done].
    + exists (minted a (w_pool w)). split_and!; [done| |exact H3]. unfold w'. rewrite H5. by rewrite N.eqb_refl.
Qed.

(** * C59 somebody is served *)
Lemma distribute_first i l A T ds rem :
  distribute_loop (i :: l) A A T true = Ok (ds, rem) -> T = 0 -> MIN_EGLD <= A ->
  (forall s, i_space i = Some s -> MIN_EGLD <= s) -> ds <> [].
Proof.
  intros H -> HA Hs. cbn [distribute_loop] in H. unfold provider_amount in H. change (0 <? 0) with false in H.
  cbn [rbind] in H. destruct (i_space i) as [s|] eqn:Ei; cbn [rbind] in H.
  - specialize (Hs s eq_refl). destruct (MIN_EGLD <=? _) eqn:B; [|lia].
    apply rbind_ok in H as [x [_ H]]. apply rbind_ok in H as [y [_ H]]. apply rbind_ok in H as [[ds' z] [_ H]]. by injection H as <- _.
  - destruct (MIN_EGLD <=? _) eqn:B; [|lia].
    apply rbind_ok in H as [x [_ H]]. cbn [rbind] in H. apply rbind_ok in H as [[ds' z] [_ H]]. by injection H as <- _.
Qed.

Lemma deleg_nonempty a dl ul pv g c ds c1 :
  get_delegation_contract a true dl ul pv g c = Ok (ds, c1) -> MIN_EGLD <= a -> 1 <= c_maxsel g ->
  N.of_nat (length dl) < U32 ->
  (forall d p, d ∈ dl -> pv !! d = Some p -> p_elig p = true -> p_cap p = 0 \/ p_total p + MIN_EGLD <= p_cap p) ->
  ds <> [].
Proof.
  intros H Ha Hm HU Hroom. unfold get_delegation_contract in H. apply rbind_ok in H as [[] [E1 H]]. rstep E1.
  apply rbind_ok in H as [[sel total] [E2 H]]. unfold select_deleg in E2.
  apply rbind_ok in E2 as [maxp [E3 E2]]. apply rbind_ok in H as [[] [E4 H]]. apply rbind_ok in H as [sc [E5 H]].
  apply rbind_ok in H as [[ds1 rem] [E6 H]]. injection H as <- _.
  destruct (maxp_ok a (c_maxsel g) (N.of_nat (length dl)) Ha Hm) as (m & Em & Hm0 & _ & HmA & _); [lia|done|].
  rewrite E3 in Em. injection Em as <-.
  apply sel_deleg_loop_inv in E2 as (Hsub & Hsel & _ & Hlen).
  assert (Hne : sel <> []) by (intros ->; done).
  assert (Hsp : Forall (fun i => forall s, i_space i = Some s -> ONE_EGLD <= s) sel).
  { apply list.Forall_forall. intros i Hi s Es. rewrite list.Forall_forall in Hsel.
    destruct (Hsel i Hi) as ((p & Hp & Hinfo) & _ & (p' & Hp' & Hel)). rewrite Hp in Hp'. injection Hp' as <-.
    assert (Hid : i_addr i ∈ dl).
    { eapply elem_of_submseteq; [|by apply sublist_submseteq]. apply elem_of_list_fmap. by exists i. }
    assert (He : p_elig p = true) by (unfold prov_eligible in Hel; destruct (p_elig p); done).
    specialize (Hroom _ p Hid Hp He). unfold mk_info in Hinfo. apply rbind_ok in Hinfo as [sp [Esp Hinfo]].
    apply rbind_ok in Hinfo as [av [_ Hinfo]]. injection Hinfo as _ _ _ _ Hsp. rewrite Es in Hsp. subst sp. destruct (p_cap p =? 0) eqn:B; [done|].
    apply rbind_ok in Esp as [d [Ed Esp]]. apply L_Base.sub_ok in Ed as [_ ->]. injection Esp as <-.
    change ONE_EGLD with MIN_EGLD. lia. }
  pose proof E6 as E6'. unfold distribute_amount in E6. apply rbind_ok in E6 as [[l' T] [Es E6]].
  pose proof (score_all_inv _ _ _ _ _ _ Es) as [HF2 HT]. 
  assert (Hsp' : Forall (fun i => forall s, i_space i = Some s -> ONE_EGLD <= s) l').
  { clear -HF2 Hsp. induction HF2 as [|i i' l l' [E _] _ IH]; [done|]. apply list.Forall_cons in Hsp as [H1 H2].
    apply list.Forall_cons. split; [|auto]. intros s K. apply H1. rewrite E in K. exact K. }
  assert (Hne' : l' <> []) by (intros ->; by apply Forall2_nil_inv_r in HF2).
  destruct (N.eq_dec T 0) as [HT0|HT0].
  - apply rbind_ok in E6 as [[ds2 rem2] [E7 E6]]. destruct l' as [|i l']; [done|].
    assert (Hd2 : ds2 <> []).
    { apply (distribute_first i l' a T ds2 rem2 E7 HT0 Ha). intros s. apply list.Forall_cons in Hsp' as [K _]. apply K. }
    destruct (rem2 =? 0); [by injection E6 as <- _|].
    apply remaining_more in E6. intros ->. apply Forall2_nil_inv_r in E6. done.
  - destruct (max_score l' Hne') as (i & Hi & _ & Htop).
    destruct (top_served _ _ _ _ _ _ _ _ i Es ltac:(lia) E6') as (d & Hd & _); try done.
    + specialize (Hlen Hm0). change ONE_EGLD with MIN_EGLD. nia.
    + rewrite List.Forall_forall in Hsp'. by apply Hsp'.
    + intros ->. done.
Qed.

Lemma progress w u eg pays o :
  Reachable w -> snd (step w (OTx u eg pays (DelegatePending o))) = SOk -> N.of_nat (length (w_dl w)) < 2 ^ 32 ->
  (forall c p, c ∈ w_dl w -> w_pv w !! c = Some p -> p_elig p = true -> p_cap p = 0 \/ p_total p + ONE_EGLD <= p_cap p) ->
  pending_egld (fst (step w (OTx u eg pays (DelegatePending o)))) + ONE_EGLD <= pending_egld w.
Proof.
  intros Hr Hs HU Hroom. pose proof (cfgok w Hr) as (HM & _).
  did_of w (OTx u eg pays (DelegatePending o)) Hs. cbn in *. unfold pending_egld. cbn.
  match goal with K : get_delegation_contract _ _ _ _ _ _ _ = _, B : batch_amount _ _ = _ |- _ =>
    apply batch_amount_inv in B as (Hmin & _ & _); pose proof (deleg_nonempty _ _ _ _ _ _ _ _ K (proj1 Hmin) HM HU Hroom) as Hne end.
  destruct ds as [|d ds]; [done|]. match goal with H : Forall (deleg_sel_ok _) _ |- _ => apply list.Forall_cons in H as [(p & _ & _ & K & _) _] end.
  change ONE_EGLD with MIN_EGLD. unfold damts in *. cbn in *. lia.
Qed.

(** * C60 the loss of a deposit *)
Lemma deposit_loss w u a pays :
  Reachable w -> snd (step w (OTx u a pays Delegate)) = SOk -> 0 < virtual_reserve w ->
  let w' := fst (step w (OTx u a pays Delegate)) in
  exists m, ls_balance u w' = ls_balance u w + m
    /\ a * ls_supply w' < (m + 1) * virtual_reserve w'.
Proof.
  intros Hr Hs Hpos w'. destruct (mint_exact w u a pays Hr Hs) as (m & H1 & _ & _ & H2 & _ & H3 & H4).
  specialize (H2 Hpos). exists m. split; [exact H1|]. unfold w'. rewrite H3, H4. nia.
Qed.

(** * C51 replies that never abort *)
Lemma any_order w i c a r :
  Reachable w ->
  (nth_error (w_res w) i = Some (KDeleg c a, r) -> snd (step w (OCb i)) = SOk)
  /\ (nth_error (w_res w) i = Some (KUndel c a, RFail) -> snd (step w (OCb i)) = SOk)
  /\ (nth_error (w_res w) i = Some (KUndel c a, r) -> r <> RFail ->
      (snd (step w (OCb i)) = SOk <-> a <= fst (recorded w c))
      /\ (a <= fst (recorded w c) -> unbonding (fst (step w (OCb i))) = unbonding w + a
          /\ snd (recorded (fst (step w (OCb i))) c) = snd (recorded w c) + a)).
Proof.
  intros Hr. split_and!.
  - intros Hn. destruct r; [by destruct (cb_deleg_failed w i c a Hr Hn)|by destruct (cb_deleg_ok w i c a v Hr Hn)].
  - intros Hn. by destruct (cb_undel_failed w i c a Hr Hn).
  - intros Hn Hf. destruct r as [|v]; [done|]. destruct (cb_undel_ok w i c a v Hr Hn) as (p & Hp & _ & Hiff & Heff).
    unfold recorded. rewrite Hp. cbn [fst snd]. split; [exact Hiff|]. intros Ha. destruct (Heff Ha) as (H1 & H2 & _).
    split; [unfold unbonding; by rewrite H2|]. rewrite H1, lookup_insert. done.
Qed.

(** * C58 a configuration with proper ranges *)
Lemma config_works w u eg pays s v o :
  let w' := fst (step w (OTx u eg pays (SetScoringConfig s))) in
  Reachable w -> snd (step w (OTx u eg pays (SetScoringConfig s))) = SOk -> distinct_bounds s -> operator v w ->
  (fits_queue o (pending_egld w) -> N.of_nat (length (w_dl w)) < 2 ^ 32 ->
   (forall c p, c ∈ w_dl w -> w_pv w !! c = Some p -> within_cap p) ->
   (exists c p, c ∈ w_dl w /\ w_pv w !! c = Some p /\ has_room p) ->
   snd (step w' (OTx v 0 [] (DelegatePending o))) = SOk)
  /\ (fits_queue o (unstake_queue w) -> N.of_nat (length (w_ul w)) < 2 ^ 32 ->
   c_maxsel (w_cfg w) < 2 ^ 64 -> c_maxsel (w_cfg w) mod 2 ^ 32 <> 0 ->
   (forall c p, c ∈ w_ul w -> w_pv w !! c = Some p -> net_zero_or_one p) ->
   (exists c p, c ∈ w_ul w /\ w_pv w !! c = Some p /\ 0 < net_stake p) ->
   snd (step w' (OTx v 0 [] (UnDelegatePending o))) = SOk).
Proof.
  intros w' Hr Hs Hd Hop. assert (Hr' : Reachable w') by (by apply reach_step).
  assert (Ew' : w' = set_cfg (set_c_score (Some s) (w_cfg w)) (set_log [] w)).
  { subst w'. did_of w (OTx u eg pays (SetScoringConfig s)) Hs. done. }
  split; intros.
  - apply (deleg_batch_works w' v o s Hr'); rewrite Ew' in *; done.
  - apply (undel_batch_works w' v o s Hr'); rewrite Ew' in *; done.
Qed.

(** * C54 the queue moves on *)
Lemma queue_moves w u o sc :
  Reachable w -> operator u w -> fits_queue o (unstake_queue w) ->
  c_score (w_cfg w) = Some sc -> distinct_bounds sc -> N.of_nat (length (w_ul w)) < 2 ^ 32 ->
  c_maxsel (w_cfg w) < 2 ^ 64 -> c_maxsel (w_cfg w) mod 2 ^ 32 <> 0 ->
  (forall c p, c ∈ w_ul w -> w_pv w !! c = Some p -> net_zero_or_one p) ->
  (exists c p, c ∈ w_ul w /\ w_pv w !! c = Some p /\ 0 < net_stake p) ->
  snd (step w (OTx u 0 [] (UnDelegatePending o))) = SOk.
Proof. intros. by apply (undel_batch_works w u o sc). Qed.

Lemma no_rejection_works w os u o sc :
  Deployed w -> along (fun v o => ~ rejects_delegation v o) w os ->
  let v := run w os in
  operator u v -> fits_queue o (unstake_queue v) ->
  c_score (w_cfg v) = Some sc -> distinct_bounds sc -> N.of_nat (length (w_ul v)) < 2 ^ 32 ->
  c_maxsel (w_cfg v) < 2 ^ 64 -> c_maxsel (w_cfg v) mod 2 ^ 32 <> 0 ->
  (exists c p, c ∈ w_ul v /\ w_pv v !! c = Some p /\ 0 < net_stake p) ->
  snd (step v (OTx u 0 [] (UnDelegatePending o))) = SOk.
Proof.
  intros Hd Ha v Hop Hq Hs Hb Hl H1 H2 Hex. destruct (net_run w os (deployed_reach w Hd) (net_deploy w Hd) Ha) as [_ Hr].
  apply (queue_moves v u o sc); try done. intros c p _ Hp. exact (net_history w os Hd Ha c p Hp).
Qed.
