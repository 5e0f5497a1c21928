(** L_Often.v — when and how often the fees are claimed does not matter to anybody else. *)
From Verif Require Export Spec25 L_Access L_Safe L_Donate L_Books.

Section more.
Context (x : N).

(** [v] is [w] with [x] more fees, which are there as EGLD; the logs agree on what was sent *)
Definition more_fees (c : pool) : pool := set_fees_res (fees_res c + x) c.
Definition sends (e : eff) : bool :=
  match e with XEgld _ _ | XLs _ _ | XUst _ _ _ | XDeposit _ _ | XCall _ => true | _ => false end.
Definition fuller (w v : world) : Prop := exists g,
  v = set_log g (set_pool (more_fees (w_pool w)) (set_egld (w_egld w + x) w)) /\ List.filter sends g = List.filter sends (w_log w).
Definition SP {A} (a b : A * world) : Prop := fst b = fst a /\ fuller (snd a) (snd b).
Definition CP (a b : pool * world) : Prop := fst b = more_fees (fst a) /\ fuller (snd a) (snd b).
Definition PC {A} (a b : A * pool) : Prop := fst b = fst a /\ snd b = more_fees (snd a).
Definition CN {A} (a b : pool * A) : Prop := fst b = more_fees (fst a) /\ snd b = snd a.
Definition PO (c d : pool) : Prop := d = more_fees c.

Definition sm {A} (R : A -> A -> Prop) (r1 r2 : res A) : Prop :=
  r1 = Er EFunds \/ match r1, r2 with Ok a, Ok b => R a b | Er e, Er e' => e = e' | _, _ => False end.

Lemma sm_bind {A C} (R : A -> A -> Prop) (Q : C -> C -> Prop) m m' g g' :
  sm R m m' -> (forall a b, R a b -> sm Q (g a) (g' b)) -> sm Q (rbind m g) (rbind m' g').
Proof.
  intros [-> | H] K; [by left|]. destruct m as [a|e], m' as [b|e']; cbn; try done; [by apply K|]. right. done.
Qed.
Lemma sm_same {A C} (Q : C -> C -> Prop) (m : res A) g g' :
  (forall a, sm Q (g a) (g' a)) -> sm Q (rbind m g) (rbind m g').
Proof. intros H. destruct m as [a|e]; cbn; [apply H|by right]. Qed.
Lemma sm_ok {A} (R : A -> A -> Prop) a b : R a b -> sm R (Ok a) (Ok b).
Proof. by right. Qed.
Lemma sm_er {A} (R : A -> A -> Prop) e : sm R (Er e) (Er e).
Proof. by right. Qed.

(** reading *)
Lemma S_cfg w v : fuller w v -> w_cfg v = w_cfg w. Proof. by intros (g & -> & _). Qed.
Lemma S_pool w v : fuller w v -> w_pool v = more_fees (w_pool w). Proof. by intros (g & -> & _). Qed.
Lemma S_dl w v : fuller w v -> w_dl v = w_dl w. Proof. by intros (g & -> & _). Qed.
Lemma S_ul w v : fuller w v -> w_ul v = w_ul w. Proof. by intros (g & -> & _). Qed.
Lemma S_pv w v : fuller w v -> w_pv v = w_pv w. Proof. by intros (g & -> & _). Qed.
Lemma S_un w v : fuller w v -> w_un v = w_un w. Proof. by intros (g & -> & _). Qed.
Lemma S_egld w v : fuller w v -> w_egld v = w_egld w + x. Proof. by intros (g & -> & _). Qed.
Lemma S_ls w v : fuller w v -> w_ls v = w_ls w. Proof. by intros (g & -> & _). Qed.
Lemma S_attr w v : fuller w v -> w_attr v = w_attr w. Proof. by intros (g & -> & _). Qed.
Lemma S_last w v : fuller w v -> w_last v = w_last w. Proof. by intros (g & -> & _). Qed.
Lemma S_epoch w v : fuller w v -> w_epoch v = w_epoch w. Proof. by intros (g & -> & _). Qed.
Lemma S_owner w v : fuller w v -> w_owner v = w_owner w. Proof. by intros (g & -> & _). Qed.
Lemma S_calls w v : fuller w v -> w_calls v = w_calls w. Proof. by intros (g & -> & _). Qed.
Lemma S_res w v : fuller w v -> w_res v = w_res w. Proof. by intros (g & -> & _). Qed.
Lemma S_live w v : fuller w v -> w_live v = w_live w. Proof. by intros (g & -> & _). Qed.
Lemma S_ust w v : fuller w v -> w_ust v = w_ust w. Proof. by intros (g & -> & _). Qed.

(** writing *)
Ltac wr := let H := fresh in intros H; destruct H as (g & -> & H2); exists g; split; [reflexivity|assumption].
Lemma S_set_cfg w v a : fuller w v -> fuller (set_cfg a w) (set_cfg a v). Proof. wr. Qed.
Lemma S_set_dl w v a : fuller w v -> fuller (set_dl a w) (set_dl a v). Proof. wr. Qed.
Lemma S_set_ul w v a : fuller w v -> fuller (set_ul a w) (set_ul a v). Proof. wr. Qed.
Lemma S_set_pv w v a : fuller w v -> fuller (set_pv a w) (set_pv a v). Proof. wr. Qed.
Lemma S_set_un w v a : fuller w v -> fuller (set_un a w) (set_un a v). Proof. wr. Qed.
Lemma S_set_ls w v a : fuller w v -> fuller (set_ls a w) (set_ls a v). Proof. wr. Qed.
Lemma S_set_attr w v a : fuller w v -> fuller (set_attr a w) (set_attr a v). Proof. wr. Qed.
Lemma S_set_last w v a : fuller w v -> fuller (set_last a w) (set_last a v). Proof. wr. Qed.
Lemma S_set_epoch w v a : fuller w v -> fuller (set_epoch a w) (set_epoch a v). Proof. wr. Qed.
Lemma S_set_owner w v a : fuller w v -> fuller (set_owner a w) (set_owner a v). Proof. wr. Qed.
Lemma S_set_calls w v a : fuller w v -> fuller (set_calls a w) (set_calls a v). Proof. wr. Qed.
Lemma S_set_res w v a : fuller w v -> fuller (set_res a w) (set_res a v). Proof. wr. Qed.
Lemma S_set_live w v a : fuller w v -> fuller (set_live a w) (set_live a v). Proof. wr. Qed.
Lemma S_commit w v c d : d = more_fees c -> fuller w v -> fuller (commit c w) (commit d v).
Proof. intros ->. wr. Qed.
Lemma S_set_egld w v a b : b = a + x -> fuller w v -> fuller (set_egld a w) (set_egld b v).
Proof. intros ->. wr. Qed.
Lemma S_set_log w v : fuller w v -> fuller (set_log [] w) (set_log [] v).
Proof. intros (g & -> & H2). by exists []. Qed.
Lemma S_emit w v e : fuller w v -> fuller (emit e w) (emit e v).
Proof.
  intros (g & -> & H2). exists (g ++ [e]). split; [reflexivity|].
  cbn. rewrite !List.filter_app. by rewrite H2.
Qed.
Lemma S_event w v e d : sends e = false -> sends d = false -> fuller w v -> fuller (emit e w) (emit d v).
Proof.
  intros He Hd (g & -> & H2). exists (g ++ [d]). split; [reflexivity|].
  cbn. rewrite !List.filter_app. cbn. rewrite He, Hd, H2. by rewrite !app_nil_r.
Qed.
Lemma S_set_ust w v a : fuller w v -> fuller (set_ust a w) (set_ust a v). Proof. wr. Qed.

Ltac rd :=
  repeat match goal with H : fuller ?w ?v |- _ =>
    progress (rewrite ?(S_cfg w v H), ?(S_pool w v H), ?(S_dl w v H), ?(S_ul w v H), ?(S_pv w v H), ?(S_un w v H),
      ?(S_ls w v H), ?(S_ust w v H), ?(S_attr w v H), ?(S_last w v H), ?(S_epoch w v H), ?(S_owner w v H), ?(S_calls w v H), ?(S_res w v H), ?(S_live w v H))
  end.
Ltac wt := repeat first [assumption | apply S_commit; [reflexivity|] | apply S_emit | apply S_event; [reflexivity|reflexivity|]
  | apply S_set_cfg | apply S_set_dl | apply S_set_ul | apply S_set_pv | apply S_set_un | apply S_set_ls | apply S_set_ust | apply S_set_attr | apply S_set_last
  | apply S_set_epoch | apply S_set_owner | apply S_set_calls | apply S_set_res | apply S_set_live].

Lemma sm_take a w v : fuller w v -> sm fuller (take_egld a w) (take_egld a v).
Proof.
  intros H. unfold take_egld. rewrite (S_egld _ _ H). destruct (a <=? w_egld w) eqn:E; [|by left].
  replace (a <=? w_egld w + x) with true by lia. apply sm_ok, S_set_egld; [lia|done].
Qed.
Lemma sm_cache w v : fuller w v -> sm PO (cache_new w) (cache_new v).
Proof. intros H. unfold cache_new, ls_token_id. rd. apply sm_same. intros _. by apply sm_ok. Qed.
Lemma eq_active w v : fuller w v -> is_state_active v = is_state_active w.
Proof. intros H. unfold is_state_active. by rd. Qed.
Lemma eq_manager y w v : fuller w v -> is_manager y v = is_manager y w.
Proof. intros H. unfold is_manager, manager_b. by rd. Qed.
Lemma eq_owner y w v : fuller w v -> only_owner y v = only_owner y w.
Proof. intros H. unfold only_owner. by rd. Qed.
Lemma eq_ustid w v : fuller w v -> unstake_token_id v = unstake_token_id w.
Proof. intros H. unfold unstake_token_id. by rd. Qed.
Lemma eq_attrs n w v : fuller w v -> token_attributes n v = token_attributes n w.
Proof. intros H. unfold token_attributes, ubal. by rd. Qed.
Lemma eq_migr y w v : fuller w v -> migration_caller y v = migration_caller y w.
Proof. intros H. unfold migration_caller. by rd. Qed.

(** sequencing: the same computation on both sides, or related ones *)
Ltac eqs := repeat match goal with H : fuller ?w ?v |- _ =>
    progress (rewrite ?(eq_active w v H), ?(eq_manager _ w v H), ?(eq_owner _ w v H), ?(eq_ustid w v H), ?(eq_attrs _ w v H), ?(eq_migr _ w v H))
  end; rd.
Ltac same1 := match goal with |- sm _ (rbind ?m _) (rbind ?m' _) => change m' with m; apply sm_same; intros ? end.
Ltac via R L := eapply (sm_bind R); [apply L; wt|intros ? ? ?; cbn beta].

Lemma sm_send_egld y a w v : fuller w v -> sm fuller (send_egld y a w) (send_egld y a v).
Proof. intros H. unfold send_egld. via fuller sm_take. apply sm_ok. wt. Qed.
Lemma sm_register k a w v : fuller w v -> sm fuller (register k a w) (register k a v).
Proof. intros H. unfold register. via fuller sm_take. rd. apply sm_ok. wt. Qed.
Lemma S_mint_ls a w v : fuller w v -> fuller (mint_ls a w) (mint_ls a v).
Proof. intros H. unfold mint_ls. rd. wt. Qed.
Lemma sm_burn_ls a w v : fuller w v -> sm fuller (burn_ls a w) (burn_ls a v).
Proof. intros H. unfold burn_ls. rd. same1. apply sm_ok. wt. Qed.
Lemma sm_send_ls y a w v : fuller w v -> sm fuller (send_ls y a w) (send_ls y a v).
Proof. intros H. unfold send_ls. rd. same1. apply sm_ok. wt. Qed.
Lemma sm_send_ust y n a w v : fuller w v -> sm fuller (send_ust y n a w) (send_ust y n a v).
Proof. intros H. unfold send_ust. rd. same1. apply sm_ok. wt. Qed.
Lemma sm_nft_add n a w v : fuller w v -> sm fuller (nft_add n a w) (nft_add n a v).
Proof. intros H. unfold nft_add, ubal. rd. destruct (0 <? _); [|by left]. apply sm_ok. wt. Qed.
Lemma sm_nft_burn n a w v : fuller w v -> sm fuller (nft_burn n a w) (nft_burn n a v).
Proof. intros H. unfold nft_burn. rd. same1. apply sm_ok. wt. Qed.
Lemma sm_upd_prov c g w v : fuller w v -> sm fuller (upd_prov c g w) (upd_prov c g v).
Proof. intros H. unfold upd_prov. rd. same1. same1. apply sm_ok. wt. Qed.
Lemma sm_clean n e w v : fuller w v -> sm fuller (clean_old_unbond_epochs n e w) (clean_old_unbond_epochs n e v).
Proof.
  intros H. unfold clean_old_unbond_epochs. eqs. same1. destruct a as [s r]. destruct (s <? e); [|by apply sm_ok]. cbv zeta.
  unfold ubal. cbn [w_ust set_un]. rd. apply sm_nft_burn. wt.
Qed.
Lemma sm_mint at_ a ue e w v : fuller w v -> sm SP (mint_unstake_tokens at_ a ue e w) (mint_unstake_tokens at_ a ue e v).
Proof.
  intros H. unfold mint_unstake_tokens. eqs. same1. destruct (w_un w !! ue) as [n|].
  - via fuller sm_nft_add. by apply sm_ok.
  - unfold nft_create. eqs. cbv beta iota zeta.
    eapply (sm_bind fuller).
    + cbn [w_un set_ust set_attr set_last]. eqs. destruct (1 <? w_last w + 1); [apply sm_clean; wt|apply sm_ok; wt].
    + intros ? ? ?. by apply sm_ok.
Qed.

(** the pool *)
Ltac pr := match goal with |- sm _ (let '(_, _) := ?a in _) _ => destruct a as [? ?] end.
Lemma sm_add_liq a c : sm PC (pool_add_liquidity a c) (pool_add_liquidity a (more_fees c)).
Proof. unfold pool_add_liquidity. same1. apply sm_ok. done. Qed.
Lemma sm_remove_liq a c : sm PC (pool_remove_liquidity a c) (pool_remove_liquidity a (more_fees c)).
Proof. unfold pool_remove_liquidity. same1. same1. same1. apply sm_ok. done. Qed.
Lemma sm_decrease a b c : sm CN (decrease_pending_egld a b c) (decrease_pending_egld a b (more_fees c)).
Proof.
  unfold decrease_pending_egld. same1. cbv zeta. same1. by apply sm_ok.
Qed.
Lemma sm_increase a b c : sm CN (increase_pending_egld a b c) (increase_pending_egld a b (more_fees c)).
Proof. unfold increase_pending_egld. cbv zeta. same1. by apply sm_ok. Qed.
Lemma sm_get a b dl ul pv g c : sm PC (get_delegation_contract a b dl ul pv g c) (get_delegation_contract a b dl ul pv g (more_fees c)).
Proof.
  unfold get_delegation_contract. cbv zeta. same1. same1. pr. same1. same1. same1. pr.
  apply sm_ok. split; [done|]. by destruct b.
Qed.

Ltac pc := match goal with
  | H : PC ?a ?b |- _ => destruct a as [? ?], b as [? ?]; destruct H as [? ?]; cbn in *; subst
  | H : CN ?a ?b |- _ => destruct a as [? ?], b as [? ?]; destruct H as [? ?]; cbn in *; subst
  | H : CP ?a ?b |- _ => destruct a as [? ?], b as [? ?]; destruct H as [? ?]; cbn in *; subst
  | H : SP ?a ?b |- _ => destruct a as [? ?], b as [? ?]; destruct H as [? ?]; cbn in *; subst
  | H : PO ?a ?b |- _ => unfold PO in H; subst b
  end.

Lemma sm_process_delegation y a b c w v : fuller w v -> sm CP (process_delegation y a b c w) (process_delegation y a b (more_fees c) v).
Proof.
  intros H. unfold process_delegation.
  eapply (sm_bind CN). { destruct (0 <? a); [apply sm_decrease|by apply sm_ok]. }
  intros ? ? ?. pc. eapply (sm_bind CN). { destruct (0 <? b); [apply sm_increase|by apply sm_ok]. }
  intros ? ? ?. pc. destruct (0 <? n0); [|by apply sm_ok].
  eapply (sm_bind PC); [apply sm_add_liq|]. intros ? ? ?. pc.
  eapply (sm_bind fuller); [by apply sm_send_ls, S_mint_ls|]. intros ? ? ?. apply sm_ok. split; [done|]. cbn. wt.
Qed.
Lemma sm_instant y a c w v : fuller w v -> sm CP (process_instant_redemption y a c w) (process_instant_redemption y a (more_fees c) v).
Proof.
  intros H. unfold process_instant_redemption. destruct (0 <? a); [|by apply sm_ok]. same1. cbv zeta. same1.
  via fuller sm_send_egld. by apply sm_ok.
Qed.
Lemma sm_undelegate_amount y a c w v : fuller w v -> sm CP (undelegate_amount y a c w) (undelegate_amount y a (more_fees c) v).
Proof.
  intros H. unfold undelegate_amount. destruct (0 <? a); [|by apply sm_ok]. cbv zeta. same1. eqs.
  eapply (sm_bind SP); [by apply sm_mint|]. intros ? ? ?. pc. via fuller sm_send_ust. by apply sm_ok.
Qed.
Lemma sm_process_un y a b c w v : fuller w v -> sm CP (process_un_delegation y a b c w) (process_un_delegation y a b (more_fees c) v).
Proof.
  intros H. unfold process_un_delegation. via CP sm_instant. pc. via CP sm_undelegate_amount. pc.
  apply sm_ok. split; [done|]. cbn. wt.
Qed.
Lemma sm_delegate y a w v : fuller w v -> sm fuller (delegate y a w) (delegate y a v).
Proof.
  intros H. unfold delegate. via PO sm_cache. pc. eqs. same1. same1. same1. pr.
  via CP sm_process_delegation. pc. apply sm_ok. wt.
Qed.
Lemma sm_un_delegate y ps w v : fuller w v -> sm fuller (un_delegate y ps w) (un_delegate y ps v).
Proof.
  intros H. unfold un_delegate. via PO sm_cache. pc. destruct ps as [|p [|? ?]]; [by apply sm_er| |by apply sm_er].
  eqs. same1. same1. same1. eapply (sm_bind PC); [apply sm_remove_liq|]. intros ? ? ?. pc. via fuller sm_burn_ls. same1.
  pr. via CP sm_process_un. pc. apply sm_ok. wt.
Qed.

Definition LP (a b : pool * world * N) : Prop := fst (fst b) = more_fees (fst (fst a)) /\ fuller (snd (fst a)) (snd (fst b)) /\ snd b = snd a.
Lemma sm_withdraw_loop y ps : forall c w v t, fuller w v ->
  sm LP (withdraw_loop y ps c w t) (withdraw_loop y ps (more_fees c) v t).
Proof.
  induction ps as [|p r IH]; intros c w v t H; cbn [withdraw_loop]; [by apply sm_ok|].
  destruct (y_tok p) as [|n|]; [by apply sm_er| |by apply sm_er]. eqs. same1. same1. pr. same1.
  change (withdrawn (more_fees c)) with (withdrawn c). unfold burn_unstake_tokens.
  destruct (y_amt p <=? withdrawn c).
  - via fuller sm_nft_burn. same1. change (set_withdrawn ?t (more_fees c)) with (more_fees (set_withdrawn t c)). by apply IH.
  - destruct (0 <? withdrawn c); [|by apply sm_er]. via fuller sm_nft_burn. same1. via fuller sm_send_ust.
    change (set_withdrawn ?t (more_fees c)) with (more_fees (set_withdrawn t c)). by apply IH.
Qed.
Lemma sm_withdraw y ps w v : fuller w v -> sm fuller (withdraw y ps w) (withdraw y ps v).
Proof.
  intros H. unfold withdraw. via PO sm_cache. pc. eqs. same1. same1.
  eapply (sm_bind LP); [by apply sm_withdraw_loop|]. intros [[? ?] ?] [[? ?] ?] (E1 & E2 & E3). cbn in *. subst.
  via fuller sm_send_egld. apply sm_ok. wt.
Qed.

Lemma sm_delegate_batch ds : forall w v, fuller w v -> sm fuller (delegate_batch ds w) (delegate_batch ds v).
Proof.
  induction ds as [|d ds IH]; intros w v H; cbn [delegate_batch]; [by apply sm_ok|]. cbv zeta. eqs.
  via fuller sm_upd_prov. via fuller sm_register. by apply IH.
Qed.
Lemma sm_undelegate_batch ds : forall w v, fuller w v -> sm fuller (undelegate_batch ds w) (undelegate_batch ds v).
Proof.
  induction ds as [|d ds IH]; intros w v H; cbn [undelegate_batch]; [by apply sm_ok|]. cbv zeta. eqs.
  via fuller sm_upd_prov. via fuller sm_register. by apply IH.
Qed.
Lemma sm_delegate_pending y o w v : fuller w v -> sm fuller (delegate_pending y o w) (delegate_pending y o v).
Proof.
  intros H. unfold delegate_pending. via PO sm_cache. pc. eqs. same1. same1. same1.
  eapply (sm_bind PC); [apply sm_get|]. intros ? ? ?. pc. same1. cbv zeta. via fuller sm_delegate_batch. apply sm_ok. wt.
Qed.
Lemma sm_un_delegate_pending y o w v : fuller w v -> sm fuller (un_delegate_pending y o w) (un_delegate_pending y o v).
Proof.
  intros H. unfold un_delegate_pending. via PO sm_cache. pc. eqs. same1. same1. same1.
  eapply (sm_bind PC); [apply sm_get|]. intros ? ? ?. pc. same1. cbv zeta. via fuller sm_undelegate_batch. apply sm_ok. wt.
Qed.
Lemma sm_owner_set y g w v : fuller w v -> sm fuller (owner_set y g w) (owner_set y g v).
Proof. intros H. unfold owner_set. eqs. same1. apply sm_ok. wt. Qed.

Lemma sm_callback k r w v : fuller w v -> sm fuller (callback k r w) (callback k r v).
Proof.
  intros H. destruct k; cbn [callback].
  - unfold add_liquidity_callback. via PO sm_cache. pc. destruct (is_done r); cbv zeta; via fuller sm_upd_prov; apply sm_ok; wt.
  - unfold remove_liquidity_callback. via PO sm_cache. pc. eapply (sm_bind CP).
    + destruct (is_done r); cbv zeta; via fuller sm_upd_prov; by apply sm_ok.
    + intros ? ? ?. pc. apply sm_ok. wt.
  - unfold withdraw_tokens_callback. destruct (0 <? _); [|by apply sm_ok]. via PO sm_cache. pc. same1. cbv zeta. via fuller sm_upd_prov.
    apply sm_ok. wt.
  - unfold claim_rewards_callback. destruct r; [by apply sm_ok|]. destruct (0 <? _); [|by apply sm_ok]. via PO sm_cache. pc. cbv zeta. eqs. same1.
    apply sm_ok. apply S_commit; [|wt]. unfold more_fees, set_reserve, set_pend, set_fees_res. cbn. f_equal. lia.
  - unfold whitelist_callback. via PO sm_cache. pc. destruct (is_done r); cbv zeta.
    + via fuller sm_upd_prov. eqs. eapply (sm_bind PC); [apply sm_add_liq|]. intros ? ? ?. pc.
      eapply (sm_bind fuller); [apply sm_send_ls, S_event; [reflexivity|reflexivity|]; apply S_mint_ls|intros ? ? ?; apply sm_ok; wt].
      cbn [w_ul set_dl]. eqs. wt.
    + eqs. via fuller sm_send_egld. apply sm_ok. wt.
  - unfold issue_callback. cbv zeta. eqs. destruct (is_done r); [apply sm_ok; wt|]. destruct (0 <? _); [|apply sm_ok; wt]. apply sm_send_egld. wt.
Qed.

Definition no_claim (ep : endpoint) : Prop := match ep with ClaimFees _ => False | _ => True end.

Lemma sm_endpoint ep y e ps w v : no_claim ep -> fuller w v -> sm fuller (run_endpoint ep y e ps w) (run_endpoint ep y e ps v).
Proof.
  intros Hc H. destruct ep; cbn [run_endpoint].
  - by apply sm_delegate.
  - by apply sm_un_delegate.
  - by apply sm_withdraw.
  - by apply sm_delegate_pending.
  - by apply sm_un_delegate_pending.
  - unfold withdraw_pending. via PO sm_cache. pc. eqs. same1. same1. same1. via fuller sm_register. apply sm_ok. wt.
  - unfold claim_rewards. via PO sm_cache. pc. eqs. same1. same1. same1. via fuller sm_register. apply sm_ok. wt.
  - done.
  - unfold whitelist. eqs. do 6 same1. cbv zeta. apply sm_register. wt.
  - unfold change_admin. eqs. same1. same1. by apply sm_upd_prov.
  - unfold change_params, manager_b. eqs. same1. same1. same1. by apply sm_upd_prov.
  - unfold register_ls_token. eqs. same1. destruct (c_lstok (w_cfg w)); try by apply sm_er. apply sm_register. wt.
  - unfold register_unstake_token. eqs. same1. destruct (c_usttok (w_cfg w)); try by apply sm_er. apply sm_register. wt.
  - by apply sm_owner_set.
  - by apply sm_owner_set.
  - by apply sm_owner_set.
  - by apply sm_owner_set.
  - by apply sm_owner_set.
  - unfold set_max_addresses. eqs. same1. same1. by apply sm_owner_set.
  - unfold set_max_selected. eqs. same1. same1. by apply sm_owner_set.
  - by apply sm_owner_set.
  - by apply sm_owner_set.
  - by apply sm_owner_set.
  - unfold set_scoring_config. eqs. same1. same1. apply sm_ok. wt.
  - unfold migrate. via PO sm_cache. pc. eqs. same1. eapply (sm_bind PC); [apply sm_add_liq|]. intros ? ? ?. pc. cbv zeta.
    eapply (sm_bind fuller); [apply sm_send_ls, S_event; [reflexivity|reflexivity|by apply S_mint_ls]|intros ? ? ?; apply sm_ok; wt].
  - unfold migrate_pending. via PO sm_cache. pc. eqs. same1. apply sm_ok. wt.
  - unfold add_rewards. via PO sm_cache. pc. eqs. apply sm_ok. wt.
  - unfold set_migration_sc. eqs. same1. same1. by apply sm_owner_set.
Qed.

(** a whole action *)
Lemma sm_pay_in y ps : forall w v, fuller w v -> sm fuller (pay_in y ps w) (pay_in y ps v).
Proof.
  induction ps as [|p r IH]; intros w v H; cbn [pay_in]; [by apply sm_ok|].
  eapply (sm_bind fuller); [|intros a b K; by apply IH].
  destruct (y_tok p) as [|n|]; [| |by apply sm_ok]; eqs.
  - destruct (debit (w_ls w) y (y_amt p)); [|by apply sm_er]. apply sm_ok. wt.
  - destruct (debit (w_ust w) (n, y) (y_amt p)); [|by apply sm_er]. apply sm_ok. wt.
Qed.
Lemma sm_tx y e ps ep w v : no_claim ep -> fuller w v -> sm fuller (exec_tx y e ps ep w) (exec_tx y e ps ep v).
Proof.
  intros Hc H. unfold exec_tx. same1. via fuller sm_pay_in. cbv zeta. same1. same1.
  apply sm_endpoint; [done|]. apply S_set_egld; [|done]. rewrite (S_egld _ _ H0). lia.
Qed.

Lemma often_step w v o : Reachable w -> is_claim o = false -> fuller w v ->
  snd (step v o) = snd (step w o) /\ fuller (fst (step w o)) (fst (step v o)).
Proof.
  intros Hr Hn H. destruct (never_out_of_funds w o Hr) as [F1 F2]. revert F1 F2. unfold step.
  apply S_set_log in H. revert H.
  generalize (set_log [] w) (set_log [] v). clear w v Hr. intros w v H.
  destruct o as [y e ps ep|i out|i|d|g t a|n g t a|a|a|c b y|i]; cbn zeta.
  - assert (Hc2 : no_claim ep) by (by destruct ep). destruct (sm_tx y e ps ep w v Hc2 H) as [E|E]; [rewrite E; cbn; done|]. intros _ _.
    destruct (exec_tx y e ps ep w), (exec_tx y e ps ep v); cbn; try done. by subst.
  - intros _ _. rewrite (S_calls _ _ H). destruct (nth_error (w_calls w) i) as [k|]; [|done].
    assert (K : match exec_call k out w, exec_call k out v with Some (r, a), Some (r', b) => r' = r /\ fuller a b | None, None => True | _, _ => False end).
    { destruct out as [z|]; [|done]. unfold exec_call, live_of. rewrite (S_live _ _ H).
      destruct k; try done; destruct (default (0, 0) (w_live w !! c)); try (destruct (_ <=? _)); try done; split; try done; wt. }
    destruct (exec_call k out w) as [[r a]|], (exec_call k out v) as [[r' b]|]; try done. destruct K as [-> K]. cbn. split; [done|]. eqs. wt.
  - rewrite (S_res _ _ H). destruct (nth_error (w_res w) i) as [[k r]|]; [|done].
    assert (K : fuller (set_egld (w_egld w + attached k r) (set_res (drop_nth i (w_res w)) w)) (set_egld (w_egld v + attached k r) (set_res (drop_nth i (w_res w)) v))).
    { apply S_set_egld; [rewrite (S_egld _ _ H); lia|]. wt. }
    destruct (sm_callback k r _ _ K) as [E|E]; [rewrite E; cbn; done|]. intros _ _. revert E.
    destruct (callback k r _), (callback k r _); cbn; try done. by intros ->.
  - intros _ _. rewrite (S_epoch _ _ H). destruct (_ <? _); [|done]. split; [done|]. cbn. wt.
  - intros _ _. rewrite (S_ls _ _ H). destruct (_ =? _); [done|]. destruct (debit _ _ _); [|done]. split; [done|]. cbn. wt.
  - intros _ _. rewrite (S_ust _ _ H). destruct (_ =? _); [done|]. destruct (debit _ _ _); [|done]. split; [done|]. cbn. wt.
  - intros _ _. split; [done|]. cbn. apply S_set_egld; [rewrite (S_egld _ _ H); lia|done].
  - intros _ _. split; [done|]. cbn. wt.
  - intros _ _. split; [done|]. cbn. eqs. wt.
  - intros _ _. rewrite (S_res _ _ H). destruct (nth_error (w_res w) i) as [[k r]|]; [|done]. split; [done|]. cbn.
    apply S_set_egld; [rewrite (S_egld _ _ H); lia|]. wt.
Qed.

Lemma S_sent y w v : fuller w v -> egld_sent y v = egld_sent y w.
Proof.
  intros (g & -> & H). unfold egld_sent. cbn.
  assert (K : forall l, sumN (map (egld_to y) l) = sumN (map (egld_to y) (List.filter sends l))).
  { clear. induction l as [|e l IH]; [done|]. cbn. destruct e; cbn; rewrite IH; done. }
  by rewrite (K g), H, <- K.
Qed.

End more.

Lemma claim_step w o : is_claim o = true ->
  let w' := fst (step w o) in let x := fee_handed_over w o (snd (step w o)) w' in
  (forall y, egld_sent y w' = 0) /\ exists g, fuller x w' (set_log g w).
Proof.
  intros Ho. destruct o as [y e ps ep| | | | | | | | |]; try done. destruct ep as [| | | | | | |b| | | | | | | | | | | | | | | | | | | |]; try done.
  assert (K : snd (step w (OTx y e ps (ClaimFees b))) = SOk \/ fst (step w (OTx y e ps (ClaimFees b))) = set_log [] w).
  { unfold step. cbv zeta. destruct (exec_tx _ _ _ _ _); [by left|by right]. }
  destruct K as [K|K].
  - destruct (claim_fees_done w y e ps b K) as (A1 & A2 & A3 & A4 & A5 & A6 & (B1 & B2 & B3 & B4 & B5 & B6 & B7 & B8 & B9) & A8).
    cbv zeta. set (w' := fst _) in *. unfold egld_sent, fee_handed_over. rewrite A3. split; [intros z; done|]. cbn [map sumN foldr deposited].
    exists (w_log w'), (w_log w'). split; [|done]. rewrite N.add_0_r. unfold contract_egld in A4.
    assert (E1 : more_fees (fees_reserve w) (w_pool w') = w_pool w). { rewrite A5. unfold more_fees, set_fees_res, fees_reserve. by destruct (w_pool w). }
    rewrite E1. assert (E2 : w_egld w' + fees_reserve w = w_egld w) by lia. rewrite E2.
    clear - A6 A8 B1 B2 B3 B4 B5 B6 B7 B8 B9. clearbody w'. destruct A8 as (C1 & C2 & C3 & C4). destruct w, w'. cbn in *. by subst.
  - cbv zeta. unfold egld_sent, fee_handed_over. rewrite K. split; [done|]. exists []. cbn. exists []. split; [|done].
    unfold more_fees, set_fees_res. destruct w as [g [? ? ? ? ? ? ?]]. cbn. unfold set_log, set_pool, set_egld. cbn. by rewrite !N.add_0_r.
Qed.

Lemma fuller_more x z w w' v g : fuller x w (set_log g v) -> (exists h, fuller z w' (set_log h w)) -> exists k, fuller (z + x) w' (set_log k v).
Proof.
  intros (g1 & E1 & F1) (h & g2 & E2 & F2). exists (w_log w'), (w_log w'). split; [|done].
  destruct w as [? [] ? ? ? ? ? ? ? ? ? ? ? ? ? ? ?], w' as [? [] ? ? ? ? ? ? ? ? ? ? ? ? ? ? ?], v as [? [] ? ? ? ? ? ? ? ? ? ? ? ? ? ? ?].
  unfold set_log, set_pool, set_egld, more_fees, set_fees_res in *. cbn in *. clear F1 F2. inversion E1. inversion E2. subst.
  repeat match goal with |- World _ _ _ _ _ _ _ _ _ _ _ _ _ _ _ _ _ = _ => f_equal | |- Pool _ _ _ _ _ _ _ = _ => f_equal end; try done; try lia.
Qed.

Lemma deposits_none w v o w' s : is_claim o = false -> did (set_log [] v) o w' s -> fee_handed_over w o s w' = 0.
Proof.
  intros Ho D. assert (Hl : w_log (set_log [] v) = []) by done. revert Hl D. generalize (set_log [] v). clear v. intros v Hl D.
  unfold fee_handed_over. destruct D; subst_pools; try discriminate Ho; try (lg Hl; lia);
    try (match goal with H : nth_error _ _ = Some (?k, ?r) |- _ => try destruct r; lg Hl; try done; lia end).
  - unshelve epose proof (maybe_quiet deposited _ _ _ _ _ deposited_quiet _ H9) as HQ; [exact Hl|].
    cbn. rewrite map_app, sumN_app, HQ. cbn. destruct (0 <? i); cbn; lia.
  - match goal with H : exec_call _ _ _ = _ |- _ => apply exec_call_frame in H as [l ->] end. lg Hl. lia.
  - lg Hl. destruct r; destruct (0 <? a); cbn; lia.
Qed.

Lemma often_history os : forall x w v g, Reachable w -> fuller x w (set_log g v) ->
  other_statuses w os = statuses v (without_claims os)
  /\ (forall y, egld_received y w os = egld_received y v (without_claims os))
  /\ exists h, fuller (tally fee_handed_over w os + x) (run w os) (set_log h (run v (without_claims os))).
Proof.
  induction os as [|o os IH]; intros x w v g Hr H; [cbn; eauto|].
  assert (Hr' : Reachable (fst (step w o))) by by apply reach_step.
  unfold without_claims. cbn [List.filter other_statuses egld_received run tally]. destruct (is_claim o) eqn:Ho; cbn [negb].
  - destruct (claim_step w o Ho) as [C1 C2]. destruct (fuller_more _ _ _ _ _ _ H C2) as [k Hk].
    destruct (IH _ _ _ _ Hr' Hk) as (I1 & I2 & h & I3). cbn [app]. split; [exact I1|]. split; [intros y; rewrite C1; exact (I2 y)|].
    exists h. rewrite (N.add_comm (fee_handed_over _ _ _ _)), <- N.add_assoc. exact I3.
  - destruct (often_step x w _ o Hr Ho H) as [E K]. rewrite step_log in E, K.
    assert (K' : fuller x (fst (step w o)) (set_log (w_log (fst (step v o))) (fst (step v o)))) by (by destruct (fst (step v o))).
    destruct (IH _ _ _ _ Hr' K') as (I1 & I2 & h & I3). cbn [statuses egld_received run app]. rewrite E. split; [by rewrite I1|].
    split; [intros y; rewrite (S_sent x y _ _ K); by rewrite I2|]. exists h.
    assert (Z : fee_handed_over w o (snd (step w o)) (fst (step w o)) = 0) by (apply (deposits_none w w); [done|apply step_did]).
    rewrite Z. exact I3.
Qed.

Lemma often_same w os : Reachable w ->
  let qs := without_claims os in let z := run w os in let z' := run w qs in let x := tally fee_handed_over w os in
  other_statuses w os = statuses w qs
  /\ (forall y, egld_received y w os = egld_received y w qs)
  /\ fees_reserve z + x = fees_reserve z' /\ contract_egld z + x = contract_egld z'
  /\ forall p, p <> Fees -> p <> Balance -> same p z z'.
Proof.
  intros Hr qs z z' x.
  assert (H : fuller 0 w (set_log (w_log w) w)).
  { exists (w_log w). split; [|done]. unfold more_fees, set_fees_res. destruct w as [? [] ? ? ? ? ? ? ? ? ? ? ? ? ? ? ?]. cbn.
    unfold set_log, set_pool, set_egld. cbn. by rewrite !N.add_0_r. }
  destruct (often_history os 0 w w _ Hr H) as (I1 & I2 & h & I3). fold qs z z' x in I1, I2, I3. rewrite N.add_0_r in I3.
  split; [done|]. split; [done|].
  pose proof (S_pool _ _ _ I3) as P1. pose proof (S_egld _ _ _ I3) as E1. cbn in P1, E1.
  split; [unfold fees_reserve; by rewrite P1|]. split; [by unfold contract_egld|].
  pose proof (S_cfg _ _ _ I3) as G1. pose proof (S_dl _ _ _ I3) as G2. pose proof (S_ul _ _ _ I3) as G3.
  pose proof (S_pv _ _ _ I3) as G4. pose proof (S_un _ _ _ I3) as G5. pose proof (S_ls _ _ _ I3) as G6.
  pose proof (S_attr _ _ _ I3) as G7. pose proof (S_last _ _ _ I3) as G8. pose proof (S_epoch _ _ _ I3) as G9.
  pose proof (S_owner _ _ _ I3) as G10. pose proof (S_calls _ _ _ I3) as G11. pose proof (S_res _ _ _ I3) as G12.
  pose proof (S_live _ _ _ I3) as G13. pose proof (S_ust _ _ _ I3) as G14. cbn in G1, G2, G3, G4, G5, G6, G7, G8, G9, G10, G11, G12, G13, G14.
  intros p N1 N2. destruct p; try done; cbn [same]; unfold ls_supply, virtual_reserve, total_withdrawn, pending_egld, unstake_queue, unbonding, live_of, ls_balance, ust_of;
    rewrite ?P1, ?G1, ?G2, ?G3, ?G4, ?G5, ?G6, ?G7, ?G8, ?G9, ?G10, ?G11, ?G12, ?G13, ?G14; try done; auto.
Qed.
