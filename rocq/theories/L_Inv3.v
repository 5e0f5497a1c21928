(** L_Inv3.v — inversion lemmas, continued: batch endpoints, callbacks,
    provider registration, configuration, migration. *)
From Verif Require Export L_Sel.

Lemma batch_amount_inv o q a :
  batch_amount o q = Ok a ->
  MIN_EGLD <= a <= q /\ (q - a = 0 \/ MIN_EGLD <= q - a)
  /\ match o with Some x => a = x | None => a = q end.
Proof.
  unfold batch_amount. intros H. apply rbind_ok in H as [[] [E1 H]]. rstep E1.
  destruct o as [x|].
  - apply rbind_ok in H as [[] [E2 H]]. rstep E2. apply rbind_ok in H as [[] [E3 H]]. rstep E3.
    apply rbind_ok in H as [lo [E4 H]]. rstep E4. apply rbind_ok in H as [[] [E5 H]]. rstep E5.
    rstep H. lia.
  - rstep H. lia.
Qed.

Lemma batch_amount_ok o q :
  MIN_EGLD <= q ->
  match o with Some x => MIN_EGLD <= x <= q /\ (q - x = 0 \/ MIN_EGLD <= q - x) | None => True end ->
  batch_amount o q = Ok (default q o).
Proof.
  intros Hq Ho. unfold batch_amount, require. destruct (MIN_EGLD <=? q) eqn:B; [|lia]. cbn.
  destruct o as [x|]; [|done].
  destruct (x <=? q) eqn:B1; [|lia]. cbn. destruct (MIN_EGLD <=? x) eqn:B2; [|lia]. cbn.
  rewrite sub_le by lia. cbn. destruct ((MIN_EGLD <=? q - x) || (q - x =? 0)) eqn:B3; [done|lia].
Qed.

Lemma delegate_pending_inv caller o w w' :
  delegate_pending caller o w = Ok w' ->
  let c := w_pool w in
  c_lstok (w_cfg w) = TIssued /\ c_active (w_cfg w) = true /\ manager_b caller w = true
  /\ exists a ds,
    batch_amount o (pend c) = Ok a
    /\ get_delegation_contract a true (w_dl w) (w_ul w) (w_pv w) (w_cfg w) c
       = Ok (ds, set_pend (pend c + (a - damts ds)) c)
    /\ map d_addr ds `sublist_of` w_dl w /\ Forall (deleg_sel_ok (w_pv w)) ds
    /\ (N.of_nat (length (w_dl w)) < U32 -> c_maxsel (w_cfg w) <> 0 -> N.of_nat (length ds) <= c_maxsel (w_cfg w))
    /\ damts ds <= a <= pend c /\ damts ds <= w_egld w
    /\ let c' := set_pend (pend c - damts ds) c in
       w' = commit c' (emit (EvGeneral caller c' (w_epoch w)) (deleg_batch_world ds w)).
Proof.
  unfold delegate_pending. intros H. apply rbind_ok in H as [c [E H]]. rstep E.
  apply rbind_ok in H as [[] [E1 H]]. rstep E1.
  apply rbind_ok in H as [[] [E2 H]]. rstep E2.
  apply rbind_ok in H as [a [E3 H]]. apply rbind_ok in H as [[ds c1] [E4 H]].
  pose proof (batch_amount_inv _ _ _ E3) as (Ha & _ & _).
  pose proof (get_deleg_inv _ _ _ _ _ _ _ _ E4) as (H1 & H2 & H3 & H4 & ->).
  apply rbind_ok in H as [p [E5 H]]. rstep E5. cbn in E5.
  apply rbind_ok in H as [w1 [E6 H]]. rstep H.
  apply delegate_batch_inv in E6 as (H5 & H6 & ->). cbn zeta.
  split_and!; try done. exists a, ds. split_and!; try done; try lia.
  unfold set_pend; cbn. replace (pend (w_pool w) + (a - damts ds) - a) with (pend (w_pool w) - damts ds) by lia.
    done.
Qed.

Lemma un_delegate_pending_inv caller o w w' :
  un_delegate_pending caller o w = Ok w' ->
  let c := w_pool w in
  c_lstok (w_cfg w) = TIssued /\ c_active (w_cfg w) = true /\ manager_b caller w = true
  /\ exists a ds,
    batch_amount o (pfu c) = Ok a
    /\ get_delegation_contract a false (w_dl w) (w_ul w) (w_pv w) (w_cfg w) c
       = Ok (ds, set_pfu (pfu c + (a - damts ds)) c)
    /\ map d_addr ds `sublist_of` w_ul w /\ Forall (undel_sel_ok (w_pv w)) ds
    /\ N.of_nat (length ds) <= c_maxsel (w_cfg w)
    /\ damts ds <= a <= pfu c
    /\ let c' := set_pfu (pfu c - damts ds) c in
       w' = commit c' (emit (EvGeneral caller c' (w_epoch w)) (undel_batch_world ds w)).
Proof.
  unfold un_delegate_pending. intros H. apply rbind_ok in H as [c [E H]]. rstep E.
  apply rbind_ok in H as [[] [E1 H]]. rstep E1.
  apply rbind_ok in H as [[] [E2 H]]. rstep E2.
  apply rbind_ok in H as [a [E3 H]]. apply rbind_ok in H as [[ds c1] [E4 H]].
  pose proof (batch_amount_inv _ _ _ E3) as (Ha & _ & _).
  pose proof (get_undel_inv _ _ _ _ _ _ _ _ E4) as (H1 & H2 & H3 & H4 & ->).
  apply rbind_ok in H as [p [E5 H]]. rstep E5. cbn in E5.
  apply rbind_ok in H as [w1 [E6 H]]. rstep H.
  apply undelegate_batch_inv in E6 as (H5 & ->). cbn zeta.
  split_and!; try done. exists a, ds. split_and!; try done; try lia.
  unfold set_pfu; cbn. replace (pfu (w_pool w) + (a - damts ds) - a) with (pfu (w_pool w) - damts ds) by lia.
  done.
Qed.

(** a call without EGLD is registered *)
Definition called (k : call) (a : N) (w : world) : world :=
  emit (XCall k) (set_calls (w_calls w ++ [k]) (set_egld (w_egld w - a) w)).

Lemma register_inv k a w w' :
  register k a w = Ok w' -> a <= w_egld w /\ w' = called k a w.
Proof. unfold register. intros H. apply rbind_ok in H as [w1 [E H]]. rstep E. rstep H. done. Qed.

Lemma register_ok k a w : a <= w_egld w -> register k a w = Ok (called k a w).
Proof.
  intros Ha. unfold register, take_egld. destruct (a <=? w_egld w) eqn:B; [done|lia].
Qed.

Lemma withdraw_pending_inv caller c w w' :
  withdraw_pending caller c w = Ok w' ->
  c_lstok (w_cfg w) = TIssued /\ c_active (w_cfg w) = true /\ manager_b caller w = true
  /\ is_Some (w_pv w !! c) /\ w' = commit (w_pool w) (called (KWithd c) 0 w).
Proof.
  unfold withdraw_pending. intros H. apply rbind_ok in H as [k [E H]]. rstep E.
  apply rbind_ok in H as [[] [E1 H]]. rstep E1. apply rbind_ok in H as [[] [E2 H]]. rstep E2.
  apply rbind_ok in H as [[] [E3 H]]. rstep E3.
  apply rbind_ok in H as [w1 [E4 H]]. apply register_inv in E4 as [_ ->]. rstep H.
  split_and!; try done. destruct (w_pv w !! c); [by eexists|done].
Qed.

Lemma claim_rewards_inv caller w w' :
  claim_rewards caller w = Ok w' ->
  c_lstok (w_cfg w) = TIssued /\ c_active (w_cfg w) = true /\ manager_b caller w = true
  /\ w_dl w <> [] /\ w' = commit (w_pool w) (called (KClaim (w_dl w)) 0 w).
Proof.
  unfold claim_rewards. intros H. apply rbind_ok in H as [k [E H]]. rstep E.
  apply rbind_ok in H as [[] [E1 H]]. rstep E1. apply rbind_ok in H as [[] [E2 H]]. rstep E2.
  apply rbind_ok in H as [[] [E3 H]]. rstep E3.
  apply rbind_ok in H as [w1 [E4 H]]. apply register_inv in E4 as [_ ->]. rstep H.
  split_and!; try done. intros E4. rewrite E4 in E3. done.
Qed.

Lemma claim_fees_inv ok w w' :
  claim_fees ok w = Ok w' ->
  let c := w_pool w in
  c_lstok (w_cfg w) = TIssued /\ ok = true /\ 0 < fees_res c <= w_egld w /\ c_acc (w_cfg w) <> SELF
  /\ w' = commit (set_fees_res 0 c) (emit (XDeposit (c_acc (w_cfg w)) (fees_res c))
           (set_egld (w_egld w - fees_res c) w)).
Proof.
  unfold claim_fees, claim_fees_with. intros H. apply rbind_ok in H as [k [E H]]. rstep E.
  apply rbind_ok in H as [[] [E1 H]]. rstep E1. apply rbind_ok in H as [[] [E2 H]]. rstep E2.
  apply rbind_ok in H as [w1 [E3 H]]. rstep E3. apply rbind_ok in H as [w2 [E4 H]]. rstep H.
  destruct ok; [|discriminate E4]. rstep E4. cbn zeta. split_and!; try done; lia.
Qed.

Definition new_prov (admin total cap nodes apy : N) : prov :=
  Prov admin total cap nodes apy 0 0 true 0 0.

Lemma whitelist_inv caller payment c admin total cap nodes apy w w' :
  whitelist caller payment c admin total cap nodes apy w = Ok w' ->
  N.of_nat (length (w_dl w)) <= c_maxaddr (w_cfg w) /\ N.of_nat (length (w_ul w)) <= c_maxaddr (w_cfg w)
  /\ manager_b caller w = true /\ w_pv w !! c = None /\ (total <= cap \/ cap = 0)
  /\ MIN_EGLD <= payment <= w_egld w
  /\ w' = called (KWhite c payment caller) payment
            (set_pv (<[c := new_prov admin total cap nodes apy]> (w_pv w)) w).
Proof.
  unfold whitelist. intros H.
  apply rbind_ok in H as [[] [E1 H]]. rstep E1. apply rbind_ok in H as [[] [E2 H]]. rstep E2.
  apply rbind_ok in H as [[] [E3 H]]. rstep E3. apply rbind_ok in H as [[] [E4 H]]. rstep E4.
  apply rbind_ok in H as [[] [E5 H]]. rstep E5. apply rbind_ok in H as [[] [E6 H]]. rstep E6.
  apply register_inv in H as [H ->]. cbn in H.
  split_and!; try done; try lia. by destruct (w_pv w !! c).
Qed.

Lemma change_admin_inv caller c admin w w' :
  change_admin caller c admin w = Ok w' ->
  manager_b caller w = true /\ exists p, w_pv w !! c = Some p
  /\ w' = set_pv (<[c := set_p_admin admin p]> (w_pv w)) w.
Proof.
  unfold change_admin, upd_prov. intros H.
  apply rbind_ok in H as [[] [E1 H]]. rstep E1. apply rbind_ok in H as [[] [E2 H]]. rstep E2.
  apply rbind_ok in H as [p [E3 H]]. rstep E3. rstep H. split; [done|]. by exists p.
Qed.

Definition with_params (total cap nodes apy : N) (elig : bool) (p : prov) : prov :=
  Prov (p_admin p) total cap nodes apy (p_staked p) (p_unstaked p) elig (p_pst p) (p_pun p).

Lemma change_params_inv caller c total cap nodes apy elig w w' :
  change_params caller c total cap nodes apy elig w = Ok w' ->
  exists p, w_pv w !! c = Some p /\ (p_admin p = caller \/ manager_b caller w = true)
  /\ (total <= cap \/ cap = 0)
  /\ w' = set_pv (<[c := with_params total cap nodes apy elig p]> (w_pv w)) w.
Proof.
  unfold change_params, upd_prov. intros H. apply rbind_ok in H as [p [E1 H]]. rstep E1.
  apply rbind_ok in H as [[] [E2 H]]. rstep E2. apply rbind_ok in H as [[] [E3 H]]. rstep E3.
  apply rbind_ok in H as [p' [E4 H]]. rstep E4. assert (p' = p) as -> by congruence.
  rstep H. exists p. split_and!; try done; [|lia].
  destruct (p_admin p =? caller) eqn:B; [left; lia|right; done].
Qed.

Lemma register_ls_token_inv caller payment w w' :
  register_ls_token caller payment w = Ok w' ->
  caller = w_owner w /\ c_lstok (w_cfg w) = TNotSet /\ payment <= w_egld w
  /\ w' = called (KIssue true caller payment) payment (set_cfg (set_c_lstok TPending (w_cfg w)) w).
Proof.
  unfold register_ls_token. intros H. apply rbind_ok in H as [[] [E1 H]]. rstep E1.
  destruct (c_lstok (w_cfg w)) eqn:B; try discriminate H.
  apply register_inv in H as [H ->]. cbn in H. split_and!; try done; lia.
Qed.
Lemma register_unstake_token_inv caller payment w w' :
  register_unstake_token caller payment w = Ok w' ->
  caller = w_owner w /\ c_usttok (w_cfg w) = TNotSet /\ payment <= w_egld w
  /\ w' = called (KIssue false caller payment) payment (set_cfg (set_c_usttok TPending (w_cfg w)) w).
Proof.
  unfold register_unstake_token. intros H. apply rbind_ok in H as [[] [E1 H]]. rstep E1.
  destruct (c_usttok (w_cfg w)) eqn:B; try discriminate H.
  apply register_inv in H as [H ->]. cbn in H. split_and!; try done; lia.
Qed.

Lemma owner_set_inv caller f w w' :
  owner_set caller f w = Ok w' -> caller = w_owner w /\ w' = set_cfg (f (w_cfg w)) w.
Proof. unfold owner_set. intros H. apply rbind_ok in H as [[] [E1 H]]. rstep E1. rstep H. split; [lia|done]. Qed.

Lemma set_max_addresses_inv caller n w w' :
  set_max_addresses caller n w = Ok w' ->
  caller = w_owner w /\ 1 <= n /\ w' = set_cfg (set_c_maxaddr n (w_cfg w)) w.
Proof.
  unfold set_max_addresses. intros H. apply rbind_ok in H as [[] [E1 H]]. rstep E1.
  apply rbind_ok in H as [[] [E2 H]]. rstep E2. apply owner_set_inv in H as [-> ->].
  split_and!; try done; lia.
Qed.
Lemma set_max_selected_inv caller n w w' :
  set_max_selected caller n w = Ok w' ->
  caller = w_owner w /\ 1 <= n /\ w' = set_cfg (set_c_maxsel n (w_cfg w)) w.
Proof.
  unfold set_max_selected. intros H. apply rbind_ok in H as [[] [E1 H]]. rstep E1.
  apply rbind_ok in H as [[] [E2 H]]. rstep E2. apply owner_set_inv in H as [-> ->].
  split_and!; try done; lia.
Qed.
Lemma set_scoring_config_inv caller s w w' :
  set_scoring_config caller s w = Ok w' ->
  manager_b caller w = true /\ add64 (add64 (k_stake_w s) (k_apy_w s)) (k_nodes_w s) = 100
  /\ w' = set_cfg (set_c_score (Some s) (w_cfg w)) w.
Proof.
  unfold set_scoring_config. intros H. apply rbind_ok in H as [[] [E1 H]]. rstep E1.
  apply rbind_ok in H as [[] [E2 H]]. rstep E2. rstep H. split_and!; try done; lia.
Qed.
Lemma set_migration_sc_inv caller a w w' :
  set_migration_sc caller a w = Ok w' ->
  caller = w_owner w /\ is_smart_contract a = true /\ w' = set_cfg (set_c_migr (Some a) (w_cfg w)) w.
Proof.
  unfold set_migration_sc. intros H. apply rbind_ok in H as [[] [E1 H]]. rstep E1.
  apply rbind_ok in H as [[] [E2 H]]. rstep E2. apply owner_set_inv in H as [-> ->]. done.
Qed.

Lemma migration_caller_inv caller w u :
  migration_caller caller w = Ok u ->
  c_migr (w_cfg w) = Some caller /\ caller <> 0 /\ is_smart_contract caller = true.
Proof.
  unfold migration_caller. destruct (c_migr (w_cfg w)) as [m|]; [|discriminate].
  intros H. apply rbind_ok in H as [[] [E1 H]]. rstep E1. apply rbind_ok in H as [[] [E2 H]]. rstep E2.
  rstep H. assert (m = caller) as -> by lia. split_and!; try done. lia.
Qed.

Lemma migrate_inv caller a orig w w' :
  migrate caller a orig w = Ok w' ->
  let c := w_pool w in
  c_lstok (w_cfg w) = TIssued /\ c_migr (w_cfg w) = Some caller /\ caller <> 0
  /\ is_smart_contract caller = true /\ 0 < minted a c
  /\ w' = commit (pool_plus a c)
            (emit (XLs caller (minted a c)) (emit (EvAdd a orig (pool_plus a c) (w_epoch w))
              (ls_paid caller (minted a c) w))).
Proof.
  unfold migrate. intros H. apply rbind_ok in H as [k [E H]]. rstep E.
  apply rbind_ok in H as [[] [E1 H]]. apply migration_caller_inv in E1 as (H1 & H2 & H3).
  apply rbind_ok in H as [[m c1] [E2 H]]. apply pool_add_inv in E2 as (-> & Hm & ->).
  apply rbind_ok in H as [w1 [E3 H]]. rstep H. cbn zeta. split_and!; try done.
  unfold send_ls in E3. apply rbind_ok in E3 as [m [E4 E3]]. rstep E3. cbn in E4. rstep E4.
  unfold ls_paid, emit, lbal, commit, credit. cbn.
  rewrite insert_insert, (amt_insert (w_ls w) SELF SELF), decide_True by done.
  replace (amt_at (w_ls w) SELF + minted a (w_pool w) - minted a (w_pool w)) with (amt_at (w_ls w) SELF) by lia.
  done.
Qed.

Lemma migrate_pending_inv caller a w w' :
  migrate_pending caller a w = Ok w' ->
  let c := w_pool w in
  c_lstok (w_cfg w) = TIssued /\ c_migr (w_cfg w) = Some caller /\ caller <> 0
  /\ is_smart_contract caller = true
  /\ w' = commit (set_pend (pend c + a) c) (emit (EvGeneral caller (set_pend (pend c + a) c) (w_epoch w)) w).
Proof.
  unfold migrate_pending. intros H. apply rbind_ok in H as [k [E H]]. rstep E.
  apply rbind_ok in H as [[] [E1 H]]. apply migration_caller_inv in E1 as (H1 & H2 & H3).
  rstep H. done.
Qed.

Definition rewarded (a : N) (c : pool) : pool := set_pend (pend c + a) (set_reserve (reserve c + a) c).

Lemma add_rewards_inv caller a w w' :
  add_rewards caller a w = Ok w' ->
  c_lstok (w_cfg w) = TIssued
  /\ w' = commit (rewarded a (w_pool w)) (emit (EvGeneral caller (rewarded a (w_pool w)) (w_epoch w)) w).
Proof. unfold add_rewards. intros H. apply rbind_ok in H as [k [E H]]. rstep E. rstep H. done. Qed.

(** * Callbacks *)
Lemma upd_prov_inv c f w w' :
  upd_prov c f w = Ok w' ->
  exists p p', w_pv w !! c = Some p /\ f p = Ok p' /\ w' = set_pv (<[c := p']> (w_pv w)) w.
Proof.
  unfold upd_prov. intros H. apply rbind_ok in H as [p [E H]]. rstep E.
  apply rbind_ok in H as [p' [E1 H]]. rstep H. eauto.
Qed.

Definition p_undelegated (a : N) (p : prov) : prov :=
  Prov (p_admin p) (p_total p) (p_cap p) (p_nodes p) (p_apy p) (p_staked p - a) (p_unstaked p + a)
    (p_elig p) (p_pst p) (p_pun p - a).
Definition p_undel_failed (a : N) (p : prov) : prov := set_p_pun (p_pun p - a) p.
Definition p_delegated (a : N) (p : prov) : prov :=
  Prov (p_admin p) (p_total p) (p_cap p) (p_nodes p) (p_apy p) (p_staked p + a) (p_unstaked p)
    (p_elig p) (p_pst p - a) (p_pun p).
Definition p_deleg_failed (a : N) (p : prov) : prov :=
  Prov (p_admin p) (p_total p) (p_cap p) (p_nodes p) (p_apy p) (p_staked p) (p_unstaked p)
    false (p_pst p - a) (p_pun p).

Lemma remove_cb_inv c a ok w w' :
  remove_liquidity_callback c a ok w = Ok w' ->
  c_lstok (w_cfg w) = TIssued /\ exists p, w_pv w !! c = Some p /\ a <= p_pun p
  /\ let k := w_pool w in
     if ok then a <= p_staked p /\
       let k1 := set_pfb (pfb k + a) k in
       w' = commit k1 (emit (EvGeneral c k1 (w_epoch w)) (set_pv (<[c := p_undelegated a p]> (w_pv w)) w))
     else
       let k1 := set_pfu (pfu k + a) k in
       w' = commit k1 (emit (EvGeneral c k1 (w_epoch w)) (set_pv (<[c := p_undel_failed a p]> (w_pv w)) w)).
Proof.
  unfold remove_liquidity_callback. intros H. apply rbind_ok in H as [k [E H]]. rstep E.
  split; [done|]. apply rbind_ok in H as [[k1 w1] [E1 H]]. rstep H. destruct ok.
  - apply rbind_ok in E1 as [w2 [E2 E1]]. rstep E1. apply upd_prov_inv in E2 as (p & p' & Hp & Hf & ->).
    rstep Hf. exists p. split_and!; try done; lia.
  - apply rbind_ok in E1 as [w2 [E2 E1]]. rstep E1. apply upd_prov_inv in E2 as (p & p' & Hp & Hf & ->).
    rstep Hf. exists p. split_and!; try done; lia.
Qed.

Lemma add_cb_inv c a ok w w' :
  add_liquidity_callback c a ok w = Ok w' ->
  c_lstok (w_cfg w) = TIssued /\ exists p, w_pv w !! c = Some p /\ a <= p_pst p
  /\ let k := w_pool w in
     if ok then w' = commit k (set_pv (<[c := p_delegated a p]> (w_pv w)) w)
     else
       let k1 := set_pend (pend k + a) k in
       w' = commit k1 (emit (EvGeneral c k1 (w_epoch w)) (set_pv (<[c := p_deleg_failed a p]> (w_pv w)) w)).
Proof.
  unfold add_liquidity_callback. intros H. apply rbind_ok in H as [k [E H]]. rstep E.
  split; [done|]. destruct ok.
  - apply rbind_ok in H as [w1 [E1 H]]. rstep H. apply upd_prov_inv in E1 as (p & p' & Hp & Hf & ->).
    rstep Hf. exists p. split_and!; try done; lia.
  - apply rbind_ok in H as [w1 [E1 H]]. rstep H. apply upd_prov_inv in E1 as (p & p' & Hp & Hf & ->).
    rstep Hf. exists p. split_and!; try done; lia.
Qed.

Definition got_back (v : N) (k : pool) : pool :=
  set_pfb (pfb k - v) (set_withdrawn (withdrawn k + v) k).

Lemma withdraw_cb_inv c v w w' :
  withdraw_tokens_callback c v w = Ok w' ->
  v = 0 /\ w' = w \/
  0 < v /\ c_lstok (w_cfg w) = TIssued /\ exists p, w_pv w !! c = Some p /\ v <= p_unstaked p
  /\ v <= pfb (w_pool w)
  /\ let k1 := got_back v (w_pool w) in
     w' = commit k1 (emit (EvWithdrawPending v c c k1 (w_epoch w))
            (set_pv (<[c := set_p_unstaked (p_unstaked p - v) p]> (w_pv w)) w)).
Proof.
  unfold withdraw_tokens_callback. intros H. destruct (0 <? v) eqn:B.
  - right. split; [lia|]. apply rbind_ok in H as [k [E H]]. rstep E.
    apply rbind_ok in H as [u [E1 H]]. rstep E1. apply rbind_ok in H as [w1 [E2 H]]. rstep H.
    apply upd_prov_inv in E2 as (p & p' & Hp & Hf & ->). rstep Hf.
    split; [done|]. exists p. split_and!; try done; lia.
  - rstep H. left. split; [lia|done].
Qed.

Definition fee_of (total : N) (w : world) : N := total * c_fees (w_cfg w) / BPS.
Definition reward_pool (total : N) (w : world) : pool :=
  let k := w_pool w in let f := fee_of total w in
  Pool (supply k) (reserve k + (total - f)) (fees_res k + f) (withdrawn k) (pend k + (total - f))
    (pfu k) (pfb k).

Lemma claim_cb_inv r w w' :
  claim_rewards_callback r w = Ok w' ->
  (r = RFail \/ r = RDone 0) /\ w' = w \/
  exists total, r = RDone total /\ 0 < total /\ c_lstok (w_cfg w) = TIssued
    /\ fee_of total w <= total
    /\ w' = commit (reward_pool total w) (emit (EvClaim total DELEGATION_MANAGER (reward_pool total w) (w_epoch w))
             (emit (EvRevenue (fee_of total w) (w_epoch w)) w)).
Proof.
  unfold claim_rewards_callback. destruct r as [|total]; intros H.
  - rstep H. left. split; [by left|done].
  - destruct (0 <? total) eqn:B.
    + right. exists total. split; [done|]. split; [lia|].
      apply rbind_ok in H as [k [E H]]. rstep E. apply rbind_ok in H as [x [E1 H]]. rstep E1. rstep H.
      split_and!; try done.
    + rstep H. left. split; [|done]. right. f_equal. lia.
Qed.

Definition white_ok_world (c a caller : N) (p : prov) (w : world) : world :=
  let k := w_pool w in
  commit (pool_plus a k)
    (emit (XLs caller (minted a k)) (emit (EvAdd a caller (pool_plus a k) (w_epoch w))
      (ls_paid caller (minted a k)
        (set_ul (set_insert c (w_ul w)) (set_dl (set_insert c (w_dl w))
          (set_pv (<[c := set_p_staked (p_staked p + a) p]> (w_pv w)) w)))))).

Lemma white_cb_inv c a caller ok w w' :
  whitelist_callback c a caller ok w = Ok w' ->
  c_lstok (w_cfg w) = TIssued /\
  if ok then exists p, w_pv w !! c = Some p /\ 0 < minted a (w_pool w) /\ w' = white_ok_world c a caller p w
  else a <= w_egld w /\
    w' = commit (w_pool w) (emit (XEgld caller a) (set_egld (w_egld w - a) (set_pv (delete c (w_pv w)) w))).
Proof.
  unfold whitelist_callback. intros H. apply rbind_ok in H as [k [E H]]. rstep E.
  split; [done|]. destruct ok.
  - apply rbind_ok in H as [w1 [E1 H]]. apply upd_prov_inv in E1 as (p & p' & Hp & Hf & ->). rstep Hf.
    apply rbind_ok in H as [[m k1] [E2 H]]. apply pool_add_inv in E2 as (-> & Hm & ->).
    apply rbind_ok in H as [w5 [E3 H]]. rstep H. exists p. split_and!; try done.
    unfold send_ls in E3. apply rbind_ok in E3 as [m [E4 E3]]. rstep E3. cbn in E4. rstep E4.
    unfold white_ok_world, ls_paid, emit, lbal, commit, credit. cbn.
    rewrite insert_insert, (amt_insert (w_ls w) SELF SELF), decide_True by done.
    replace (amt_at (w_ls w) SELF + minted a (w_pool w) - minted a (w_pool w)) with (amt_at (w_ls w) SELF) by lia.
    done.
  - apply rbind_ok in H as [w2 [E1 H]]. unfold send_egld in E1. apply rbind_ok in E1 as [w3 [E2 E1]].
    rstep E2. rstep E1. rstep H. cbn in E2. done.
Qed.

Definition issue_cfg (ls : bool) (ok : bool) (g : cfg) : cfg :=
  let st := if ok then TIssued else TNotSet in
  if ls then set_c_lstok st g else set_c_usttok st g.

Lemma issue_cb_inv ls who a ok w w' :
  issue_callback ls who a ok w = Ok w' ->
  if ok then w' = set_cfg (issue_cfg ls true (w_cfg w)) w
  else a <= w_egld w /\ w' = egld_paid who a (set_cfg (issue_cfg ls false (w_cfg w)) w).
Proof.
  unfold issue_callback. destruct ok; intros H.
  - rstep H. unfold issue_cfg. done.
  - unfold egld_paid. destruct (0 <? a) eqn:B.
    + unfold send_egld in H. apply rbind_ok in H as [w1 [E H]]. rstep E. rstep H. cbn in E. done.
    + rstep H. split; [lia|done].
Qed.
