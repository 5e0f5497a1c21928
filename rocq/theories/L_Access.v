(** L_Access.v — access control, pausing, migration, events, fees. *)
From Verif Require Export L_Batch.

Lemma tx_refused w u eg pays ep :
  snd (step w (OTx u eg pays ep)) <> SOk -> fst (step w (OTx u eg pays ep)) = set_log [] w.
Proof. unfold step. destruct (exec_tx u eg pays ep (set_log [] w)); done. Qed.

Lemma owner_gate w u eg pays ep :
  owner_only ep = true -> u <> w_owner w ->
  snd (step w (OTx u eg pays ep)) <> SOk /\ nothing_happened w (fst (step w (OTx u eg pays ep))).
Proof.
  intros Ho Hu. assert (H : snd (step w (OTx u eg pays ep)) <> SOk); [|split; [done|by apply tx_refused]].
  intros Hs. did_of w (OTx u eg pays ep) Hs; try discriminate Ho; by apply Hu.
Qed.

Lemma manager_spec u w : manager_b u w = true -> u = w_owner w \/ u ∈ c_mgrs (w_cfg w).
Proof.
  unfold manager_b. intros H. apply orb_true_iff in H as [H|H]; [right; by apply existsb_in|left; lia].
Qed.

Lemma manager_gate w u eg pays ep :
  manager_only ep = true -> u <> w_owner w -> u ∉ c_mgrs (w_cfg w) ->
  snd (step w (OTx u eg pays ep)) <> SOk /\ nothing_happened w (fst (step w (OTx u eg pays ep))).
Proof.
  intros Ho Hu Hm. assert (H : snd (step w (OTx u eg pays ep)) <> SOk); [|split; [done|by apply tx_refused]].
  intros Hs. did_of w (OTx u eg pays ep) Hs; try discriminate Ho;
    try (match goal with H : manager_b _ _ = true |- _ => apply manager_spec in H as [H|H]; [by apply Hu|by apply Hm] end).
  by apply Hu.
Qed.

Lemma active_gate w u eg pays ep :
  needs_active ep = true -> c_active (w_cfg w) = false ->
  snd (step w (OTx u eg pays ep)) <> SOk /\ nothing_happened w (fst (step w (OTx u eg pays ep))).
Proof.
  intros Ho Ha. assert (H : snd (step w (OTx u eg pays ep)) <> SOk); [|split; [done|by apply tx_refused]].
  intros Hs. did_of w (OTx u eg pays ep) Hs; try discriminate Ho; cbn in *; try congruence.
  destruct ep; try discriminate Ho; match goal with H : False |- _ => destruct H end.
Qed.

(** who can change the configuration *)
Lemma config_changes w o :
  w_cfg (fst (step w o)) <> w_cfg w ->
  (exists eg pays ep, o = OTx (w_owner w) eg pays ep /\ owner_only ep = true)
  \/ (exists u s, o = OTx u 0 [] (SetScoringConfig s) /\ (u = w_owner w \/ u ∈ c_mgrs (w_cfg w))
      /\ w_cfg (fst (step w o)) = set_c_score (Some s) (w_cfg w))
  \/ (exists i ls who a r, o = OCb i /\ nth_error (w_res w) i = Some (KIssue ls who a, r)).
Proof.
  intros Hc. pose proof (step_did w o) as D. revert D Hc. generalize (fst (step w o)) (snd (step w o)). intros w' s D Hc.
  destruct D; subst_pools; try (exfalso; by apply Hc).
  - um_clean. by exfalso.
  - left. cbn in *. subst. do 3 eexists. split; [reflexivity|done].
  - left. cbn in *. subst. do 3 eexists. split; [reflexivity|done].
  - left. do 3 eexists. cbn in *. subst. split; [reflexivity|].
    match goal with H : match ep with _ => _ end |- _ => destruct ep; try done end.
  - right. left. do 2 eexists. split; [reflexivity|]. split; [by apply manager_spec|done].
  - match goal with H : exec_call _ _ _ = _ |- _ => apply exec_call_frame in H as [l ->] end. by exfalso.
  - right. right. do 5 eexists. split; [reflexivity|eassumption].
  - right. right. do 5 eexists. split; [reflexivity|eassumption].
Qed.

Lemma mgrs_change w o :
  c_mgrs (w_cfg (fst (step w o))) <> c_mgrs (w_cfg w) ->
  (exists l, o = OTx (w_owner w) 0 [] (AddManagers l)) \/ (exists m, o = OTx (w_owner w) 0 [] (RemoveManager m)).
Proof.
  intros Hc. pose proof (step_did w o) as D. revert D Hc. generalize (fst (step w o)) (snd (step w o)). intros w' s D Hc.
  destruct D; subst_pools; try (exfalso; by apply Hc).
  - um_clean. by exfalso.
  - cbn in *. subst. match goal with H : match ep with _ => _ end |- _ =>
      destruct ep; try (by destruct H); try (by left; eexists); try (by right; eexists);
      exfalso; first [rewrite H in Hc|destruct H as [-> _]]; by apply Hc end.
  - match goal with H : exec_call _ _ _ = _ |- _ => apply exec_call_frame in H as [l ->] end. by exfalso.
  - exfalso. apply Hc. by destruct ls.
  - exfalso. apply Hc. by destruct ls.
Qed.

Lemma add_all_in l s x : x ∈ add_all l s <-> x ∈ l \/ x ∈ s.
Proof.
  revert s. induction l as [|a l IH]; intros s; cbn [add_all].
  - split; [by right|intros [H|H]; [by apply not_elem_of_nil in H|done]].
  - rewrite IH, set_insert_in, elem_of_cons. tauto.
Qed.

Lemma add_managers_done w u eg pays l :
  snd (step w (OTx u eg pays (AddManagers l))) = SOk ->
  forall x, x ∈ c_mgrs (w_cfg (fst (step w (OTx u eg pays (AddManagers l))))) <-> x ∈ l \/ x ∈ c_mgrs (w_cfg w).
Proof.
  intros Hs x. did_of w (OTx u eg pays (AddManagers l)) Hs. cbn in *. subst. cbn. apply add_all_in.
Qed.

Lemma swap_remove_split c l1 l2 : c ∉ l1 ->
  swap_remove c (l1 ++ c :: l2) = l1 ++ match l2 with [] => [] | _ => List.last l2 c :: removelast l2 end.
Proof.
  intros H. unfold swap_remove.
  assert (existsb (N.eqb c) (l1 ++ c :: l2) = true) as ->.
  { apply existsb_in. apply elem_of_app. right. by left. }
  assert (R : forall z, replace_at c z (l1 ++ c :: l2) = l1 ++ z :: l2).
  { intros z. induction l1 as [|x l1 IH]; cbn; [by rewrite N.eqb_refl|].
    apply not_elem_of_cons in H as [Hx H]. destruct (N.eqb_spec x c); [congruence|]. by rewrite IH. }
  rewrite R. rewrite List.removelast_app by done. f_equal.
  destruct l2 as [|y l2]; [done|]. cbn [removelast]. f_equal.
  clear. induction l1 as [|x l1 IH]; [done|]. cbn [app List.last] in *. rewrite IH. by destruct l1.
Qed.

Lemma swap_remove_nil c l : c ∉ l -> swap_remove c l = l.
Proof.
  intros H. unfold swap_remove. destruct (existsb (N.eqb c) l) eqn:E; [|done]. by apply existsb_in in E.
Qed.

Lemma first_split (c : addr) l : c ∈ l -> exists l1 l2, l = l1 ++ c :: l2 /\ c ∉ l1.
Proof.
  induction l as [|x l IH]; intros H; [by apply not_elem_of_nil in H|].
  destruct (decide (x = c)) as [->|Hn]; [exists [], l; split; [done|apply not_elem_of_nil]|].
  apply elem_of_cons in H as [H|H]; [congruence|]. destruct (IH H) as (l1 & l2 & -> & Hc).
  exists (x :: l1), l2. split; [done|]. rewrite not_elem_of_cons. by split.
Qed.

Lemma swap_remove_perm c l : c ∈ l -> c :: swap_remove c l ≡ₚ l.
Proof.
  intros H. destruct (first_split c l H) as (l1 & l2 & -> & Hc). rewrite swap_remove_split by done.
  destruct l2 as [|y l2]; [by rewrite app_nil_r, Permutation_app_comm|].
  rewrite Permutation_middle. rewrite (List.app_removelast_last c (l:=y::l2)) at 3 by done.
  f_equiv. f_equiv. by rewrite Permutation_app_comm.
Qed.

Lemma swap_remove_nodup c l : NoDup l -> NoDup (swap_remove c l).
Proof.
  intros H. destruct (decide (c ∈ l)) as [Hc|Hc]; [|by rewrite swap_remove_nil].
  rewrite <- (swap_remove_perm c l Hc) in H. by inversion H.
Qed.

Lemma swap_remove_in c x l : NoDup l -> x ∈ swap_remove c l <-> x <> c /\ x ∈ l.
Proof.
  intros H. destruct (decide (c ∈ l)) as [Hc|Hc].
  - assert (P := swap_remove_perm c l Hc). rewrite <- P in H. rewrite <- P at 2. inversion H as [|? ? H1 H2]; subst.
    rewrite elem_of_cons. split; [intros Hx; split; [by intros ->|by right]|intros [? [?|?]]; by try congruence].
  - rewrite swap_remove_nil by done. split; [intros Hx; split; [by intros ->|done]|tauto].
Qed.

Lemma add_all_nodup l s : NoDup s -> NoDup (add_all l s).
Proof. revert s. induction l as [|a l IH]; intros s H; [done|]. cbn [add_all]. by apply IH, set_insert_nodup. Qed.

Lemma mgrs_nodup w : Reachable w -> NoDup (c_mgrs (w_cfg w)).
Proof.
  apply (reach_ind (fun w => NoDup (c_mgrs (w_cfg w)))).
  - intros owner acc fees rpe minr maxsel maxaddr unbond epoch v H. unfold deploy in H. rstep H. unfold init in *.
    repeat match goal with E : rbind _ _ = Ok _ |- _ => rstep E end. cbn. apply NoDup_nil_2.
  - intros v H. exact H.
  - intros v o v' s _ IH D. destruct D; subst_pools; try exact IH.
    + um_clean. exact IH.
    + cbn in *. match goal with H : match ep with _ => _ end |- _ =>
        destruct ep; try (by destruct H); try (subst; exact IH); try (destruct H as [-> ?]; exact IH) end.
      * subst. cbn. by apply add_all_nodup.
      * subst. cbn. by apply swap_remove_nodup.
    + match goal with H : exec_call _ _ _ = _ |- _ => apply exec_call_frame in H as [l ->] end. exact IH.
    + by destruct ls.
    + by destruct ls.
Qed.

Lemma add_all_app l s : exists k, add_all l s = s ++ k /\ sublist k l.
Proof.
  revert s. induction l as [|a l IH]; intros s; cbn [add_all].
  - exists []. by rewrite app_nil_r.
  - unfold set_insert. destruct (existsb (N.eqb a) s) eqn:E.
    + destruct (IH s) as (k & -> & Hk). exists k. split; [done|]. by apply sublist_cons.
    + destruct (IH (s ++ [a])) as (k & -> & Hk). exists (a :: k). split; [by rewrite <- app_assoc|]. by apply sublist_skip.
Qed.

Lemma remove_manager_done w u eg pays m :
  Reachable w -> snd (step w (OTx u eg pays (RemoveManager m))) = SOk ->
  forall x, x ∈ c_mgrs (w_cfg (fst (step w (OTx u eg pays (RemoveManager m))))) <-> x <> m /\ x ∈ c_mgrs (w_cfg w).
Proof.
  intros Hr Hs x. did_of w (OTx u eg pays (RemoveManager m)) Hs. cbn in *. subst. cbn.
  apply swap_remove_in, mgrs_nodup, Hr.
Qed.

(** provider parameters *)
Lemma params_done w u eg pays c total cap nodes apy elig :
  let o := OTx u eg pays (ChangeParams c total cap nodes apy elig) in
  snd (step w o) = SOk ->
  let w' := fst (step w o) in
  (total <= cap \/ cap = 0) /\ w_egld w' = w_egld w /\ w_pool w' = w_pool w
  /\ (exists p, w_pv w !! c = Some p /\ (u = p_admin p \/ u = w_owner w \/ u ∈ c_mgrs (w_cfg w))
      /\ w_pv w' = <[c := Prov (p_admin p) total cap nodes apy (p_staked p) (p_unstaked p) elig (p_pst p) (p_pun p)]> (w_pv w))
  /\ w_cfg w' = w_cfg w /\ w_dl w' = w_dl w /\ w_ul w' = w_ul w /\ w_calls w' = w_calls w /\ w_res w' = w_res w
  /\ ledgers_unchanged w w' /\ env_unchanged w w' /\ w_log w' = [].
Proof.
  intros o Hs. subst o. did_of w (OTx u eg pays (ChangeParams c total cap nodes apy elig)) Hs. cbn in *.
  split_and!; try done. exists p. split_and!; try done.
  match goal with H : _ \/ manager_b _ _ = true |- _ => destruct H as [H|H]; [left; done|right; by apply manager_spec] end.
Qed.

Lemma params_allowed w u c total cap nodes apy elig p :
  w_pv w !! c = Some p -> u <> SELF -> u = p_admin p \/ u = w_owner w \/ u ∈ c_mgrs (w_cfg w) ->
  total <= cap \/ cap = 0 -> nodes < 2 ^ 64 -> apy < 2 ^ 64 ->
  snd (step w (OTx u 0 [] (ChangeParams c total cap nodes apy elig))) = SOk.
Proof.
  intros Hp Hu Hw Ht Hn Ha. unfold step, exec_tx. cbn.
  assert (E0 : (u =? SELF) = false) by lia. rewrite E0. cbn.
  change (2 ^ 64) with U64 in *.
  assert (E1 : (nodes <? U64) && (apy <? U64) = true) by lia. rewrite E1. cbn.
  unfold change_params, get_prov. cbn. rewrite Hp. cbn.
  assert (E2 : (p_admin p =? u) || manager_b u (set_egld (w_egld w + 0) (set_log [] w)) = true).
  { unfold manager_b. cbn. destruct Hw as [->|[->|Hw]]; [by rewrite N.eqb_refl|rewrite N.eqb_refl; by rewrite !orb_true_r|].
    apply existsb_in in Hw. rewrite Hw. by rewrite orb_true_r. }
  rewrite E2. cbn.
  assert (E3 : (total <=? cap) || (cap =? 0) = true) by lia. rewrite E3. cbn.
  unfold upd_prov, get_prov. cbn. rewrite Hp. done.
Qed.

(** which actions touch a provider's reported parameters *)
Lemma prov_params_change w o c p p' :
  Reachable w -> w_pv w !! c = Some p -> w_pv (fst (step w o)) !! c = Some p' ->
  (p_admin p', p_total p', p_cap p', p_nodes p', p_apy p') <> (p_admin p, p_total p, p_cap p, p_nodes p, p_apy p) ->
  (exists u total cap nodes apy elig, o = OTx u 0 [] (ChangeParams c total cap nodes apy elig)
     /\ (u = p_admin p \/ u = w_owner w \/ u ∈ c_mgrs (w_cfg w)))
  \/ (exists u a, o = OTx u 0 [] (ChangeAdmin c a) /\ (u = w_owner w \/ u ∈ c_mgrs (w_cfg w))).
Proof.
  intros Hr Hp Hp' Hne. pose proof (step_did w o) as D. revert D Hp'. generalize (fst (step w o)) (snd (step w o)).
  intros w' s D Hp'.
  change (w_pv (set_log [] w)) with (w_pv w) in *.
  assert (Hins : forall (c0 : N) (q q' : prov), w_pv w !! c0 = Some q -> <[c0 := q']> (w_pv w) !! c = Some p' ->
    (p_admin q', p_total q', p_cap q', p_nodes q', p_apy q') = (p_admin q, p_total q, p_cap q, p_nodes q, p_apy q) -> False).
  { intros c0 q q' Hq Hq' E. destruct (decide (c0 = c)) as [->|Hc].
    - rewrite lookup_insert in Hq'. injection Hq' as ->. rewrite Hp in Hq. injection Hq as ->. by apply Hne.
    - rewrite lookup_insert_ne in Hq' by done. rewrite Hp in Hq'. injection Hq' as ->. by apply Hne. }
  assert (Hsame : w_pv w !! c = Some p' -> False) by (intros E; rewrite Hp in E; injection E as ->; by apply Hne).
  destruct D; subst_pools; try (exfalso; exact (Hsame Hp'));
    try (exfalso; cbn in Hp'; eapply Hins; [|exact Hp'|]; [eassumption|reflexivity]).
  - um_clean. exfalso. exact (Hsame Hp').
  - exfalso. cbn in Hp'. rewrite add_psts_lookup in Hp'. change (w_pv (set_log [] w)) with (w_pv w) in *. rewrite Hp in Hp'. injection Hp' as <-. by apply Hne.
  - exfalso. cbn in Hp'. rewrite add_puns_lookup in Hp'. change (w_pv (set_log [] w)) with (w_pv w) in *. rewrite Hp in Hp'. injection Hp' as <-. by apply Hne.
  - exfalso. cbn in *. destruct (decide (c0 = c)) as [->|Hc]; [congruence|].
    rewrite lookup_insert_ne in Hp' by done. exact (Hsame Hp').
  - cbn in *. destruct (decide (c0 = c)) as [->|Hc].
    + right. do 2 eexists. split; [reflexivity|by apply manager_spec].
    + exfalso. rewrite lookup_insert_ne in Hp' by done. exact (Hsame Hp').
  - cbn in *. destruct (decide (c0 = c)) as [->|Hc].
    + left. rewrite Hp in *. match goal with E : Some p = Some _ |- _ => injection E as <- end. do 6 eexists. split; [reflexivity|].
      match goal with H : _ \/ manager_b _ _ = true |- _ => destruct H as [H|H]; [left; done|right; by apply manager_spec] end.
    + exfalso. rewrite lookup_insert_ne in Hp' by done. exact (Hsame Hp').
  - match goal with H : exec_call _ _ _ = _ |- _ => apply exec_call_frame in H as [l ->] end. exfalso. exact (Hsame Hp').
  - exfalso. cbn in Hp'. destruct (decide (c0 = c)) as [->|Hc].
    + rewrite lookup_delete in Hp'. done.
    + rewrite lookup_delete_ne in Hp' by done. exact (Hsame Hp').
Qed.

(** replies are booked while the contract is paused: callbacks do not read the
    state flag *)
Lemma callback_flag k r w b : 
  callback k r (set_cfg (set_c_active b (w_cfg w)) w) =
  match callback k r w with Ok w' => Ok (set_cfg (set_c_active b (w_cfg w')) w') | Er e => Er e end.
Proof.
  destruct k as [c a|c a|c|l|c a u|ls u a]; cbn [callback].
  - unfold add_liquidity_callback, cache_new, ls_token_id, upd_prov, get_prov. cbn.
    destruct (c_lstok (w_cfg w)); try done. cbn. destruct (is_done r), (w_pv w !! c) as [p|]; cbn; try done; by destruct (sub (p_pst p) a).
  - unfold remove_liquidity_callback, cache_new, ls_token_id, upd_prov, get_prov. cbn.
    destruct (c_lstok (w_cfg w)); try done. cbn. destruct (is_done r), (w_pv w !! c) as [p|]; cbn; try done.
    + destruct (sub (p_staked p) a); try done. cbn. by destruct (sub (p_pun p) a).
    + by destruct (sub (p_pun p) a).
  - unfold withdraw_tokens_callback, cache_new, ls_token_id, upd_prov, get_prov. destruct (0 <? _); [|done]. cbn.
    destruct (c_lstok (w_cfg w)); try done. cbn. destruct (sub (pfb (w_pool w)) _); cbn; try done.
    destruct (w_pv w !! c) as [p|]; cbn; try done. by destruct (sub (p_unstaked p) _).
  - unfold claim_rewards_callback, cache_new, ls_token_id. destruct r as [|v]; [done|]. destruct (0 <? v); [|done]. cbn.
    destruct (c_lstok (w_cfg w)); try done. cbn. by destruct (sub v _).
  - unfold whitelist_callback, cache_new, ls_token_id, upd_prov, get_prov. cbn.
    destruct (c_lstok (w_cfg w)); try done. cbn. destruct (is_done r).
    + destruct (w_pv w !! c) as [p|]; cbn; try done. destruct (pool_add_liquidity a (w_pool w)) as [[m k1]|]; cbn; try done.
      unfold send_ls. cbn. by destruct (debit _ _ _).
    + unfold send_egld, take_egld. cbn. by destruct (a <=? w_egld w).
  - unfold issue_callback, send_egld, take_egld. destruct (is_done r), ls; cbn; try done; destruct (0 <? a); try done; cbn; by destruct (a <=? w_egld w).
Qed.

Lemma cb_paused w i b :
  let v := set_cfg (set_c_active b (w_cfg w)) w in
  snd (step v (OCb i)) = snd (step w (OCb i))
  /\ fst (step v (OCb i)) = set_cfg (set_c_active b (w_cfg (fst (step w (OCb i))))) (fst (step w (OCb i))).
Proof.
  cbv zeta. unfold step. cbn. destruct (nth_error (w_res w) i) as [[k r]|]; [|done].
  match goal with |- context [callback k r ?x] => match goal with |- context [callback k r (set_egld ?e (set_res ?rs (set_log [] w)))] =>
    set (w1 := set_egld e (set_res rs (set_log [] w))) end end.
  change (set_egld _ _) with (set_cfg (set_c_active b (w_cfg w1)) w1) at 1 2.
  change (callback k r (set_egld _ _)) with (callback k r (set_cfg (set_c_active b (w_cfg w1)) w1)).
  rewrite callback_flag. destruct (callback k r w1); done.
Qed.

(** migration *)
Lemma migrate_done w u eg pays a orig :
  snd (step w (OTx u eg pays (Migrate a orig))) = SOk ->
  let w' := fst (step w (OTx u eg pays (Migrate a orig))) in
  c_migr (w_cfg w) = Some u /\ is_smart_contract u = true
  /\ exists m, view_egld_value a w = Ok m
  /\ ls_supply w' = ls_supply w + m /\ virtual_reserve w' = virtual_reserve w + a
  /\ (forall x, ls_balance x w' = ls_balance x w + (if x =? u then m else 0))
  /\ pending_egld w' = pending_egld w /\ unstake_queue w' = unstake_queue w /\ unbonding w' = unbonding w
  /\ total_withdrawn w' = total_withdrawn w /\ fees_reserve w' = fees_reserve w
  /\ contract_egld w' = contract_egld w /\ rest_unchanged w w' /\ ust_unchanged w w'.
Proof.
  intros Hs. did_of w (OTx u eg pays (Migrate a orig)) Hs. subst_pools. cbn in *. split_and!; try done.
  eexists. split; [by apply view_egld_value_ok|]. split_and!; try done.
  intros x. unfold ls_balance. cbn. by apply ls_paid_balance.
Qed.

Lemma migrate_pending_done w u eg pays :
  snd (step w (OTx u eg pays MigratePending)) = SOk ->
  let w' := fst (step w (OTx u eg pays MigratePending)) in
  c_migr (w_cfg w) = Some u /\ is_smart_contract u = true
  /\ pending_egld w' = pending_egld w + eg /\ contract_egld w' = contract_egld w + eg
  /\ w_pool w' = set_pend (pending_egld w') (w_pool w)
  /\ w_ls w' = w_ls w /\ rest_unchanged w w' /\ ust_unchanged w w'.
Proof.
  intros Hs. did_of w (OTx u eg pays MigratePending) Hs. subst_pools. cbn in *. split_and!; done.
Qed.

(** fees *)
Lemma claim_fees_done w u eg pays b :
  snd (step w (OTx u eg pays (ClaimFees b))) = SOk ->
  let w' := fst (step w (OTx u eg pays (ClaimFees b))) in
  0 < fees_reserve w /\ fees_reserve w' = 0
  /\ w_log w' = [XDeposit (c_acc (w_cfg w)) (fees_reserve w)]
  /\ contract_egld w' + fees_reserve w = contract_egld w
  /\ w_pool w' = set_fees_res 0 (w_pool w)
  /\ w_ls w' = w_ls w /\ rest_unchanged w w' /\ ust_unchanged w w'.
Proof.
  intros Hs. did_of w (OTx u eg pays (ClaimFees b)) Hs. subst_pools. cbn in *. unfold contract_egld, fees_reserve. cbn.
  split_and!; try done. lia.
Qed.

Lemma claim_fees_works w u :
  Reachable w -> u <> SELF -> c_lstok (w_cfg w) = TIssued -> c_acc (w_cfg w) <> SELF -> 0 < fees_reserve w ->
  snd (step w (OTx u 0 [] (ClaimFees true))) = SOk.
Proof.
  intros Hr Hu HI Ha Hf. pose proof (acct w Hr) as A. unfold step, exec_tx. cbn.
  assert (E0 : (u =? SELF) = false) by lia. rewrite E0. cbn.
  unfold claim_fees, claim_fees_with, cache_new, ls_token_id. cbn. rewrite HI. cbn. unfold fees_reserve in Hf.
  assert (E1 : (0 <? fees_res (w_pool w)) = true) by lia. rewrite E1. cbn.
  assert (E2 : (c_acc (w_cfg w) =? SELF) = false) by lia. rewrite E2. cbn. unfold take_egld. cbn.
  destruct A. destruct (fees_res (w_pool w) <=? w_egld w + 0) eqn:B; [done|]. exfalso. cbn in *. lia.
Qed.

(** events *)
Lemma ev_none w w' e :
  reported e = None -> (forall f t, e <> EvRevenue f t) -> event_correct w w' e.
Proof. intros H1 H2. split; [rewrite H1; done|]. destruct e; try done. exfalso. by eapply H2. Qed.

Lemma ust_maybe_log caller r w w' :
  ust_maybe caller r w w' -> exists l, w_log w' = w_log w ++ l /\ Forall (fun e => exists n a, e = XUst caller n a) l.
Proof.
  destruct 1 as [_|n w' _ _ D]; [exists []; rewrite app_nil_r; split; [done|constructor]|].
  destruct D; eexists [_]; (split; [reflexivity|repeat constructor; do 2 eexists; reflexivity]).
Qed.

Lemma events_true w o :
  snd (step w o) = SOk -> Forall (event_correct w (fst (step w o))) (w_log (fst (step w o))).
Proof.
  intros Hs. pose proof (step_did w o) as D. revert D Hs. generalize (fst (step w o)) (snd (step w o)). intros w' s D Hs.
  assert (HX : forall (ds : list dsel) (f : dsel -> call) (v : world), Forall (event_correct w v) (map (fun d => XCall (f d)) ds)).
  { intros ds f v. induction ds as [|d ds IH]; constructor; auto. by apply ev_none. }
  destruct D; subst_pools; unfold fee_of in *; cbn;
    try (by subst s); try (by constructor);
    try (repeat (constructor; [first [by apply ev_none|
      split; [intros ? ? E; cbn in E; first [done|injection E as <- <-; done]|
        unfold virtual_reserve, total_withdrawn, fees_reserve; cbn in *; unfold fee_of in *; cbn in *; first [done|lia]]]|]); by constructor).
  - apply Forall_app. split.
    + assert (Hw : exists l, w_log w3 = l /\ Forall (fun e => reported e = None /\ forall f t, e <> EvRevenue f t) l).
      { match goal with H : ust_maybe _ _ _ _ |- _ => apply ust_maybe_log in H as (l & -> & Hl) end.
        eexists. split; [reflexivity|]. apply Forall_app. split.
        - unfold egld_paid. destruct (0 <? _); cbn; repeat constructor; done.
        - eapply Forall_impl; [|exact Hl]. by intros e0 (n & y & ->). }
      destruct Hw as (l & -> & Hl). eapply Forall_impl; [|exact Hl]. intros e0 [? ?]. by apply ev_none.
    + constructor; [|constructor]. um_clean. split; [intros ? ? E; cbn in E; injection E as <- <-; done|].
      unfold virtual_reserve. cbn in *. subst e. lia.
  - apply Forall_app. split; [apply Forall_app; split|].
    + unfold back_log. destruct (given_back _ _) as [[m y]|]; repeat constructor; try done.
    + constructor; [by apply ev_none|constructor].
    + constructor; [|constructor]. split; [intros ? ? E; cbn in E; injection E as <- <-; done|done].
  - apply Forall_app. split; [apply HX|]. constructor; [|constructor]. split; [intros ? ? E; cbn in E; injection E as <- <-; done|done].
  - apply Forall_app. split; [apply HX|]. constructor; [|constructor]. split; [intros ? ? E; cbn in E; injection E as <- <-; done|done].
  - match goal with H : exec_call _ _ _ = _ |- _ => apply exec_call_frame in H as [l ->] end. constructor.
  - destruct (0 <? a); [|constructor]. constructor; [by apply ev_none|constructor].
Qed.

(** no silent change *)
Lemma no_silent_change w o :
  w_pool (fst (step w o)) <> w_pool w ->
  (exists u eg pays b, o = OTx u eg pays (ClaimFees b))
  \/ exists e, In e (w_log (fst (step w o))) /\ reported e = Some (w_pool (fst (step w o)), w_epoch (fst (step w o))).
Proof.
  intros Hc. pose proof (step_did w o) as D. revert D Hc. generalize (fst (step w o)) (snd (step w o)). intros w' s D Hc.
  destruct D; subst_pools; try (exfalso; by apply Hc);
    try (right; eexists; split; [cbn; rewrite ?in_app_iff; cbn; left; reflexivity|reflexivity]);
    try (right; eexists; split; [cbn; rewrite ?in_app_iff; cbn; right; left; reflexivity|reflexivity]).
  all: try (left; do 4 eexists; reflexivity).
  all: try (um_clean; right; eexists; split; [cbn; rewrite ?in_app_iff; cbn; right; left; reflexivity|reflexivity]).
  all: try (match goal with H : exec_call _ _ _ = _ |- _ => apply exec_call_frame in H as [l ->] end; by exfalso).
Qed.
