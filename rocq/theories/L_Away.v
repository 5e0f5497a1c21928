(** L_Away.v — withdrawals concern nobody else. *)
From Verif Require Export Spec26 L_Join L_Pot L_Tok L_Safe L_Donate.

Section more.
Context (x : N) (f : N -> addr -> N) (Hf : forall n, f n SELF = 0).

(** [v] is [w] with [x] more in the pot and [f n y] more tokens of each nonce [n] at [y]; the logs
    agree on what was sent *)
Definition more_pot (c : pool) : pool := set_withdrawn (withdrawn c + x) c.
Definition more_ust (U V : gmap (N * N) N) : Prop :=
  forall n y, amt_at V (n, y) = amt_at U (n, y) + f n y.
Definition sends (e : eff) : bool :=
  match e with XEgld _ _ | XLs _ _ | XUst _ _ _ | XDeposit _ _ | XCall _ => true | _ => false end.
Definition fuller (w v : world) : Prop := exists V g,
  v = set_log g (set_ust V (set_pool (more_pot (w_pool w)) (set_egld (w_egld w + x) w)))
  /\ more_ust (w_ust w) V /\ List.filter sends g = List.filter sends (w_log w).
Definition SP {A} (a b : A * world) : Prop := fst b = fst a /\ fuller (snd a) (snd b).
Definition CP (a b : pool * world) : Prop := fst b = more_pot (fst a) /\ fuller (snd a) (snd b).
Definition PC {A} (a b : A * pool) : Prop := fst b = fst a /\ snd b = more_pot (snd a).
Definition CN {A} (a b : pool * A) : Prop := fst b = more_pot (fst a) /\ snd b = snd a.
Definition PO (c d : pool) : Prop := d = more_pot c.

Definition sm {A} (R : A -> A -> Prop) (r1 r2 : res A) : Prop :=
  r1 = Er EFunds \/ match r1, r2 with Ok a, Ok b => R a b | Er e, Er e' => e = e' | _, _ => False end.

Lemma sm_bind {A C} (R : A -> A -> Prop) (Q : C -> C -> Prop) m m' g g' :
  sm R m m' -> (forall a b, R a b -> sm Q (g a) (g' b)) -> sm Q (rbind m g) (rbind m' g').
Proof.
  intros [-> | H] K; [by left|]. destruct m as [a|e], m' as [b|e']; cbn; try done; [by apply K|]. right. done.
Qed.
Lemma sm_same {A C} (Q : C -> C -> Prop) (m : res A) g g' :
  (forall a, sm Q (g a) (g' a)) -> sm Q (rbind m g) (rbind m g').
Proof. intros H. destruct m as [a|e]; cbn; [apply H|by right]. Qed.
Lemma sm_ok {A} (R : A -> A -> Prop) a b : R a b -> sm R (Ok a) (Ok b).
Proof. by right. Qed.
Lemma sm_er {A} (R : A -> A -> Prop) e : sm R (Er e) (Er e).
Proof. by right. Qed.

(** reading *)
Lemma S_cfg w v : fuller w v -> w_cfg v = w_cfg w. Proof. by intros (V & g & -> & _). Qed.
Lemma S_pool w v : fuller w v -> w_pool v = more_pot (w_pool w). Proof. by intros (V & g & -> & _). Qed.
Lemma S_dl w v : fuller w v -> w_dl v = w_dl w. Proof. by intros (V & g & -> & _). Qed.
Lemma S_ul w v : fuller w v -> w_ul v = w_ul w. Proof. by intros (V & g & -> & _). Qed.
Lemma S_pv w v : fuller w v -> w_pv v = w_pv w. Proof. by intros (V & g & -> & _). Qed.
Lemma S_un w v : fuller w v -> w_un v = w_un w. Proof. by intros (V & g & -> & _). Qed.
Lemma S_egld w v : fuller w v -> w_egld v = w_egld w + x. Proof. by intros (V & g & -> & _). Qed.
Lemma S_ls w v : fuller w v -> w_ls v = w_ls w. Proof. by intros (V & g & -> & _). Qed.
Lemma S_attr w v : fuller w v -> w_attr v = w_attr w. Proof. by intros (V & g & -> & _). Qed.
Lemma S_last w v : fuller w v -> w_last v = w_last w. Proof. by intros (V & g & -> & _). Qed.
Lemma S_epoch w v : fuller w v -> w_epoch v = w_epoch w. Proof. by intros (V & g & -> & _). Qed.
Lemma S_owner w v : fuller w v -> w_owner v = w_owner w. Proof. by intros (V & g & -> & _). Qed.
Lemma S_calls w v : fuller w v -> w_calls v = w_calls w. Proof. by intros (V & g & -> & _). Qed.
Lemma S_res w v : fuller w v -> w_res v = w_res w. Proof. by intros (V & g & -> & _). Qed.
Lemma S_live w v : fuller w v -> w_live v = w_live w. Proof. by intros (V & g & -> & _). Qed.
Lemma S_own w v n : fuller w v -> amt_at (w_ust v) (n, SELF) = amt_at (w_ust w) (n, SELF).
Proof. intros (V & g & -> & H & _). cbn. rewrite H, Hf. lia. Qed.
Lemma S_ust w v n y : fuller w v -> amt_at (w_ust v) (n, y) = amt_at (w_ust w) (n, y) + f n y.
Proof. intros (V & g & -> & H & _). apply H. Qed.

(** writing *)
Ltac wr := let H := fresh in intros H; destruct H as (V & g & -> & H1 & H2); exists V, g; split; [reflexivity|split; assumption].
Lemma S_set_cfg w v a : fuller w v -> fuller (set_cfg a w) (set_cfg a v). Proof. wr. Qed.
Lemma S_set_dl w v a : fuller w v -> fuller (set_dl a w) (set_dl a v). Proof. wr. Qed.
Lemma S_set_ul w v a : fuller w v -> fuller (set_ul a w) (set_ul a v). Proof. wr. Qed.
Lemma S_set_pv w v a : fuller w v -> fuller (set_pv a w) (set_pv a v). Proof. wr. Qed.
Lemma S_set_un w v a : fuller w v -> fuller (set_un a w) (set_un a v). Proof. wr. Qed.
Lemma S_set_ls w v a : fuller w v -> fuller (set_ls a w) (set_ls a v). Proof. wr. Qed.
Lemma S_set_attr w v a : fuller w v -> fuller (set_attr a w) (set_attr a v). Proof. wr. Qed.
Lemma S_set_last w v a : fuller w v -> fuller (set_last a w) (set_last a v). Proof. wr. Qed.
Lemma S_set_epoch w v a : fuller w v -> fuller (set_epoch a w) (set_epoch a v). Proof. wr. Qed.
Lemma S_set_owner w v a : fuller w v -> fuller (set_owner a w) (set_owner a v). Proof. wr. Qed.
Lemma S_set_calls w v a : fuller w v -> fuller (set_calls a w) (set_calls a v). Proof. wr. Qed.
Lemma S_set_res w v a : fuller w v -> fuller (set_res a w) (set_res a v). Proof. wr. Qed.
Lemma S_set_live w v a : fuller w v -> fuller (set_live a w) (set_live a v). Proof. wr. Qed.
Lemma S_commit w v c d : d = more_pot c -> fuller w v -> fuller (commit c w) (commit d v).
Proof. intros ->. wr. Qed.
Lemma S_set_egld w v a b : b = a + x -> fuller w v -> fuller (set_egld a w) (set_egld b v).
Proof. intros ->. wr. Qed.
Lemma S_set_log w v : fuller w v -> fuller (set_log [] w) (set_log [] v).
Proof. intros (V & g & -> & H1 & H2). by exists V, []. Qed.
Lemma S_emit w v e : fuller w v -> fuller (emit e w) (emit e v).
Proof.
  intros (V & g & -> & H1 & H2). exists V, (g ++ [e]). split; [reflexivity|]. split; [done|].
  cbn. rewrite !List.filter_app. by rewrite H2.
Qed.
Lemma S_event w v e d : sends e = false -> sends d = false -> fuller w v -> fuller (emit e w) (emit d v).
Proof.
  intros He Hd (V & g & -> & H1 & H2). exists V, (g ++ [d]). split; [reflexivity|]. split; [done|].
  cbn. rewrite !List.filter_app. cbn. rewrite He, Hd, H2. by rewrite !app_nil_r.
Qed.
Lemma S_set_ust w v U V : more_ust U V -> fuller w v -> fuller (set_ust U w) (set_ust V v).
Proof. intros H (V0 & g & -> & H1 & H2). exists V, g. split; [reflexivity|]. split; assumption. Qed.
Lemma more_credit U V k a : more_ust U V -> more_ust (credit U k a) (credit V k a).
Proof. intros H n y. rewrite !amt_credit, H. lia. Qed.
Lemma S_more w v : fuller w v -> more_ust (w_ust w) (w_ust v).
Proof. by intros (V & g & -> & H1 & H2). Qed.

Lemma sm_debit U V n y a : more_ust U V -> sm more_ust (debit U (n, y) a) (debit V (n, y) a).
Proof.
  intros H. unfold debit. rewrite H. destruct (a <=? amt_at U (n, y)) eqn:E; [|by left].
  replace (a <=? amt_at U (n, y) + f n y) with true by lia.
  apply sm_ok. intros m z. rewrite !amt_insert, !H. repeat case_decide; try lia. injection H0 as <- <-. lia.
Qed.
Lemma sm_debit_own w v n a : fuller w v -> sm more_ust (debit (w_ust w) (n, SELF) a) (debit (w_ust v) (n, SELF) a).
Proof. intros H. by apply sm_debit, S_more. Qed.

Ltac rd :=
  repeat match goal with H : fuller ?w ?v |- _ =>
    progress (rewrite ?(S_cfg w v H), ?(S_pool w v H), ?(S_dl w v H), ?(S_ul w v H), ?(S_pv w v H), ?(S_un w v H),
      ?(S_ls w v H), ?(S_attr w v H), ?(S_last w v H), ?(S_epoch w v H), ?(S_owner w v H), ?(S_calls w v H), ?(S_res w v H), ?(S_live w v H))
  end.
Ltac wt := repeat first [assumption | apply S_commit; [reflexivity|] | apply S_emit | apply S_event; [reflexivity|reflexivity|]
  | apply S_set_cfg | apply S_set_dl | apply S_set_ul | apply S_set_pv | apply S_set_un | apply S_set_ls | apply S_set_attr | apply S_set_last
  | apply S_set_epoch | apply S_set_owner | apply S_set_calls | apply S_set_res | apply S_set_live].

Lemma sm_take a w v : fuller w v -> sm fuller (take_egld a w) (take_egld a v).
Proof.
  intros H. unfold take_egld. rewrite (S_egld _ _ H). destruct (a <=? w_egld w) eqn:E; [|by left].
  replace (a <=? w_egld w + x) with true by lia. apply sm_ok, S_set_egld; [lia|done].
Qed.
Lemma sm_cache w v : fuller w v -> sm PO (cache_new w) (cache_new v).
Proof. intros H. unfold cache_new, ls_token_id. rd. apply sm_same. intros _. by apply sm_ok. Qed.
Lemma eq_active w v : fuller w v -> is_state_active v = is_state_active w.
Proof. intros H. unfold is_state_active. by rd. Qed.
Lemma eq_manager y w v : fuller w v -> is_manager y v = is_manager y w.
Proof. intros H. unfold is_manager, manager_b. by rd. Qed.
Lemma eq_owner y w v : fuller w v -> only_owner y v = only_owner y w.
Proof. intros H. unfold only_owner. by rd. Qed.
Lemma eq_ustid w v : fuller w v -> unstake_token_id v = unstake_token_id w.
Proof. intros H. unfold unstake_token_id. by rd. Qed.
Lemma eq_attrs n w v : fuller w v -> token_attributes n v = token_attributes n w.
Proof. intros H. unfold token_attributes, ubal. rewrite (S_own _ _ _ H). by rd. Qed.
Lemma eq_migr y w v : fuller w v -> migration_caller y v = migration_caller y w.
Proof. intros H. unfold migration_caller. by rd. Qed.

(** sequencing: the same computation on both sides, or related ones *)
Ltac eqs := repeat match goal with H : fuller ?w ?v |- _ =>
    progress (rewrite ?(eq_active w v H), ?(eq_manager _ w v H), ?(eq_owner _ w v H), ?(eq_ustid w v H), ?(eq_attrs _ w v H), ?(eq_migr _ w v H))
  end; rd.
Ltac same1 := match goal with |- sm _ (rbind ?m _) (rbind ?m' _) => change m' with m; apply sm_same; intros ? end.
Ltac via R L := eapply (sm_bind R); [apply L; wt|intros ? ? ?; cbn beta].

Lemma sm_send_egld y a w v : fuller w v -> sm fuller (send_egld y a w) (send_egld y a v).
Proof. intros H. unfold send_egld. via fuller sm_take. apply sm_ok. wt. Qed.
Lemma sm_register k a w v : fuller w v -> sm fuller (register k a w) (register k a v).
Proof. intros H. unfold register. via fuller sm_take. rd. apply sm_ok. wt. Qed.
Lemma S_mint_ls a w v : fuller w v -> fuller (mint_ls a w) (mint_ls a v).
Proof. intros H. unfold mint_ls. rd. wt. Qed.
Lemma sm_burn_ls a w v : fuller w v -> sm fuller (burn_ls a w) (burn_ls a v).
Proof. intros H. unfold burn_ls. rd. same1. apply sm_ok. wt. Qed.
Lemma sm_send_ls y a w v : fuller w v -> sm fuller (send_ls y a w) (send_ls y a v).
Proof. intros H. unfold send_ls. rd. same1. apply sm_ok. wt. Qed.
Lemma sm_send_ust y n a w v : fuller w v -> sm fuller (send_ust y n a w) (send_ust y n a v).
Proof.
  intros H. unfold send_ust. eapply (sm_bind more_ust); [by apply sm_debit_own|]. intros U V HUV. apply sm_ok.
  apply S_emit, S_set_ust; [by apply more_credit|done].
Qed.
Lemma sm_nft_add n a w v : fuller w v -> sm fuller (nft_add n a w) (nft_add n a v).
Proof.
  intros H. unfold nft_add, ubal. rewrite (S_own _ _ _ H). destruct (0 <? _); [|by left]. apply sm_ok, S_set_ust; [|done].
  by apply more_credit, S_more.
Qed.
Lemma sm_nft_burn n a w v : fuller w v -> sm fuller (nft_burn n a w) (nft_burn n a v).
Proof.
  intros H. unfold nft_burn. eapply (sm_bind more_ust); [by apply sm_debit_own|]. intros U V HUV. by apply sm_ok, S_set_ust.
Qed.
Lemma sm_upd_prov c g w v : fuller w v -> sm fuller (upd_prov c g w) (upd_prov c g v).
Proof. intros H. unfold upd_prov. rd. same1. same1. apply sm_ok. wt. Qed.
Lemma sm_clean n e w v : fuller w v -> sm fuller (clean_old_unbond_epochs n e w) (clean_old_unbond_epochs n e v).
Proof.
  intros H. unfold clean_old_unbond_epochs. eqs. same1. destruct a as [s r]. destruct (s <? e); [|by apply sm_ok]. cbv zeta.
  unfold ubal. cbn [w_ust set_un]. rewrite (S_own _ _ _ H). apply sm_nft_burn. wt.
Qed.
Lemma sm_mint at_ a ue e w v : fuller w v -> sm SP (mint_unstake_tokens at_ a ue e w) (mint_unstake_tokens at_ a ue e v).
Proof.
  intros H. unfold mint_unstake_tokens. eqs. same1. destruct (w_un w !! ue) as [n|].
  - via fuller sm_nft_add. by apply sm_ok.
  - unfold nft_create. eqs. cbv beta iota zeta.
    assert (H2 : fuller (set_un (<[ue:=w_last w + 1]> (w_un (set_ust (credit (w_ust w) (w_last w + 1, SELF) (a + 1)) (set_attr (<[w_last w + 1:=at_]> (w_attr w)) (set_last (w_last w + 1) w)))))
                    (set_ust (credit (w_ust w) (w_last w + 1, SELF) (a + 1)) (set_attr (<[w_last w + 1:=at_]> (w_attr w)) (set_last (w_last w + 1) w))))
                   (set_un (<[ue:=w_last w + 1]> (w_un (set_ust (credit (w_ust v) (w_last w + 1, SELF) (a + 1)) (set_attr (<[w_last w + 1:=at_]> (w_attr w)) (set_last (w_last w + 1) v)))))
                    (set_ust (credit (w_ust v) (w_last w + 1, SELF) (a + 1)) (set_attr (<[w_last w + 1:=at_]> (w_attr w)) (set_last (w_last w + 1) v))))).
    { cbn [w_un set_ust set_attr set_last]. eqs. apply S_set_un, S_set_ust; [by apply more_credit, S_more|]. wt. }
    eapply (sm_bind fuller).
    + destruct (1 <? w_last w + 1); [|by apply sm_ok]. by apply sm_clean.
    + intros ? ? ?. by apply sm_ok.
Qed.

(** the pool *)
Ltac pr := match goal with |- sm _ (let '(_, _) := ?a in _) _ => destruct a as [? ?] end.
Lemma sm_add_liq a c : sm PC (pool_add_liquidity a c) (pool_add_liquidity a (more_pot c)).
Proof. unfold pool_add_liquidity. same1. apply sm_ok. done. Qed.
Lemma sm_remove_liq a c : sm PC (pool_remove_liquidity a c) (pool_remove_liquidity a (more_pot c)).
Proof. unfold pool_remove_liquidity. same1. same1. same1. apply sm_ok. done. Qed.
Lemma sm_decrease a b c : sm CN (decrease_pending_egld a b c) (decrease_pending_egld a b (more_pot c)).
Proof.
  unfold decrease_pending_egld. same1. cbv zeta. same1. apply sm_ok. split; [|done]. cbn.
  unfold more_pot, set_withdrawn, set_pfu. cbn. f_equal. lia.
Qed.
Lemma sm_increase a b c : sm CN (increase_pending_egld a b c) (increase_pending_egld a b (more_pot c)).
Proof. unfold increase_pending_egld. cbv zeta. same1. by apply sm_ok. Qed.
Lemma sm_get a b dl ul pv g c : sm PC (get_delegation_contract a b dl ul pv g c) (get_delegation_contract a b dl ul pv g (more_pot c)).
Proof.
  unfold get_delegation_contract. cbv zeta. same1. same1. pr. same1. same1. same1. pr.
  apply sm_ok. split; [done|]. by destruct b.
Qed.

Ltac pc := match goal with
  | H : PC ?a ?b |- _ => destruct a as [? ?], b as [? ?]; destruct H as [? ?]; cbn in *; subst
  | H : CN ?a ?b |- _ => destruct a as [? ?], b as [? ?]; destruct H as [? ?]; cbn in *; subst
  | H : CP ?a ?b |- _ => destruct a as [? ?], b as [? ?]; destruct H as [? ?]; cbn in *; subst
  | H : SP ?a ?b |- _ => destruct a as [? ?], b as [? ?]; destruct H as [? ?]; cbn in *; subst
  | H : PO ?a ?b |- _ => unfold PO in H; subst b
  end.

Lemma sm_process_delegation y a b c w v : fuller w v -> sm CP (process_delegation y a b c w) (process_delegation y a b (more_pot c) v).
Proof.
  intros H. unfold process_delegation.
  eapply (sm_bind CN). { destruct (0 <? a); [apply sm_decrease|by apply sm_ok]. }
  intros ? ? ?. pc. eapply (sm_bind CN). { destruct (0 <? b); [apply sm_increase|by apply sm_ok]. }
  intros ? ? ?. pc. destruct (0 <? n0); [|by apply sm_ok].
  eapply (sm_bind PC); [apply sm_add_liq|]. intros ? ? ?. pc.
  eapply (sm_bind fuller); [by apply sm_send_ls, S_mint_ls|]. intros ? ? ?. apply sm_ok. split; [done|]. cbn. wt.
Qed.
Lemma sm_instant y a c w v : fuller w v -> sm CP (process_instant_redemption y a c w) (process_instant_redemption y a (more_pot c) v).
Proof.
  intros H. unfold process_instant_redemption. destruct (0 <? a); [|by apply sm_ok]. same1. cbv zeta. same1.
  via fuller sm_send_egld. by apply sm_ok.
Qed.
Lemma sm_undelegate_amount y a c w v : fuller w v -> sm CP (undelegate_amount y a c w) (undelegate_amount y a (more_pot c) v).
Proof.
  intros H. unfold undelegate_amount. destruct (0 <? a); [|by apply sm_ok]. cbv zeta. same1. eqs.
  eapply (sm_bind SP); [by apply sm_mint|]. intros ? ? ?. pc. via fuller sm_send_ust. by apply sm_ok.
Qed.
Lemma sm_process_un y a b c w v : fuller w v -> sm CP (process_un_delegation y a b c w) (process_un_delegation y a b (more_pot c) v).
Proof.
  intros H. unfold process_un_delegation. via CP sm_instant. pc. via CP sm_undelegate_amount. pc.
  apply sm_ok. split; [done|]. cbn. wt.
Qed.
Lemma sm_delegate y a w v : fuller w v -> sm fuller (delegate y a w) (delegate y a v).
Proof.
  intros H. unfold delegate. via PO sm_cache. pc. eqs. same1. same1. same1. pr.
  via CP sm_process_delegation. pc. apply sm_ok. wt.
Qed.
Lemma sm_un_delegate y ps w v : fuller w v -> sm fuller (un_delegate y ps w) (un_delegate y ps v).
Proof.
  intros H. unfold un_delegate. via PO sm_cache. pc. destruct ps as [|p [|? ?]]; [by apply sm_er| |by apply sm_er].
  eqs. same1. same1. same1. eapply (sm_bind PC); [apply sm_remove_liq|]. intros ? ? ?. pc. via fuller sm_burn_ls. same1.
  pr. via CP sm_process_un. pc. apply sm_ok. wt.
Qed.

Lemma sm_delegate_batch ds : forall w v, fuller w v -> sm fuller (delegate_batch ds w) (delegate_batch ds v).
Proof.
  induction ds as [|d ds IH]; intros w v H; cbn [delegate_batch]; [by apply sm_ok|]. cbv zeta. eqs.
  via fuller sm_upd_prov. via fuller sm_register. by apply IH.
Qed.
Lemma sm_undelegate_batch ds : forall w v, fuller w v -> sm fuller (undelegate_batch ds w) (undelegate_batch ds v).
Proof.
  induction ds as [|d ds IH]; intros w v H; cbn [undelegate_batch]; [by apply sm_ok|]. cbv zeta. eqs.
  via fuller sm_upd_prov. via fuller sm_register. by apply IH.
Qed.
Lemma sm_delegate_pending y o w v : fuller w v -> sm fuller (delegate_pending y o w) (delegate_pending y o v).
Proof.
  intros H. unfold delegate_pending. via PO sm_cache. pc. eqs. same1. same1. same1.
  eapply (sm_bind PC); [apply sm_get|]. intros ? ? ?. pc. same1. cbv zeta. via fuller sm_delegate_batch. apply sm_ok. wt.
Qed.
Lemma sm_un_delegate_pending y o w v : fuller w v -> sm fuller (un_delegate_pending y o w) (un_delegate_pending y o v).
Proof.
  intros H. unfold un_delegate_pending. via PO sm_cache. pc. eqs. same1. same1. same1.
  eapply (sm_bind PC); [apply sm_get|]. intros ? ? ?. pc. same1. cbv zeta. via fuller sm_undelegate_batch. apply sm_ok. wt.
Qed.
Lemma sm_claim_fees ok w v : fuller w v -> sm fuller (claim_fees ok w) (claim_fees ok v).
Proof.
  intros H. unfold claim_fees, claim_fees_with. via PO sm_cache. pc. eqs. same1. same1. via fuller sm_take. cbv zeta.
  destruct ok; cbn [rbind]; [|by apply sm_er]. apply sm_ok. wt.
Qed.
Lemma sm_owner_set y g w v : fuller w v -> sm fuller (owner_set y g w) (owner_set y g v).
Proof. intros H. unfold owner_set. eqs. same1. apply sm_ok. wt. Qed.

Lemma sm_callback k r w v : fuller w v -> sm fuller (callback k r w) (callback k r v).
Proof.
  intros H. destruct k; cbn [callback].
  - unfold add_liquidity_callback. via PO sm_cache. pc. destruct (is_done r); cbv zeta; via fuller sm_upd_prov; apply sm_ok; wt.
  - unfold remove_liquidity_callback. via PO sm_cache. pc. eapply (sm_bind CP).
    + destruct (is_done r); cbv zeta; via fuller sm_upd_prov; by apply sm_ok.
    + intros ? ? ?. pc. apply sm_ok. wt.
  - unfold withdraw_tokens_callback. destruct (0 <? _); [|by apply sm_ok]. via PO sm_cache. pc. same1. cbv zeta. via fuller sm_upd_prov.
    apply sm_ok. apply S_commit; [|wt]. unfold more_pot, set_pfb, set_withdrawn. cbn. f_equal. lia.
  - unfold claim_rewards_callback. destruct r; [by apply sm_ok|]. destruct (0 <? _); [|by apply sm_ok]. via PO sm_cache. pc. cbv zeta. eqs. same1.
    apply sm_ok. wt.
  - unfold whitelist_callback. via PO sm_cache. pc. destruct (is_done r); cbv zeta.
    + via fuller sm_upd_prov. eqs. eapply (sm_bind PC); [apply sm_add_liq|]. intros ? ? ?. pc.
      eapply (sm_bind fuller); [apply sm_send_ls, S_event; [reflexivity|reflexivity|]; apply S_mint_ls|intros ? ? ?; apply sm_ok; wt].
      cbn [w_ul set_dl]. eqs. wt.
    + eqs. via fuller sm_send_egld. apply sm_ok. wt.
  - unfold issue_callback. cbv zeta. eqs. destruct (is_done r); [apply sm_ok; wt|]. destruct (0 <? _); [|apply sm_ok; wt]. apply sm_send_egld. wt.
Qed.

Definition no_withdrawal (ep : endpoint) : Prop := match ep with Withdraw => False | _ => True end.

Lemma sm_endpoint ep y e ps w v : no_withdrawal ep -> fuller w v -> sm fuller (run_endpoint ep y e ps w) (run_endpoint ep y e ps v).
Proof.
  intros Hc H. destruct ep; cbn [run_endpoint].
  - by apply sm_delegate.
  - by apply sm_un_delegate.
  - done.
  - by apply sm_delegate_pending.
  - by apply sm_un_delegate_pending.
  - unfold withdraw_pending. via PO sm_cache. pc. eqs. same1. same1. same1. via fuller sm_register. apply sm_ok. wt.
  - unfold claim_rewards. via PO sm_cache. pc. eqs. same1. same1. same1. via fuller sm_register. apply sm_ok. wt.
  - by apply sm_claim_fees.
  - unfold whitelist. eqs. do 6 same1. cbv zeta. apply sm_register. wt.
  - unfold change_admin. eqs. same1. same1. by apply sm_upd_prov.
  - unfold change_params, manager_b. eqs. same1. same1. same1. by apply sm_upd_prov.
  - unfold register_ls_token. eqs. same1. destruct (c_lstok (w_cfg w)); try by apply sm_er. apply sm_register. wt.
  - unfold register_unstake_token. eqs. same1. destruct (c_usttok (w_cfg w)); try by apply sm_er. apply sm_register. wt.
  - by apply sm_owner_set.
  - by apply sm_owner_set.
  - by apply sm_owner_set.
  - by apply sm_owner_set.
  - by apply sm_owner_set.
  - unfold set_max_addresses. eqs. same1. same1. by apply sm_owner_set.
  - unfold set_max_selected. eqs. same1. same1. by apply sm_owner_set.
  - by apply sm_owner_set.
  - by apply sm_owner_set.
  - by apply sm_owner_set.
  - unfold set_scoring_config. eqs. same1. same1. apply sm_ok. wt.
  - unfold migrate. via PO sm_cache. pc. eqs. same1. eapply (sm_bind PC); [apply sm_add_liq|]. intros ? ? ?. pc. cbv zeta.
    eapply (sm_bind fuller); [apply sm_send_ls, S_event; [reflexivity|reflexivity|by apply S_mint_ls]|intros ? ? ?; apply sm_ok; wt].
  - unfold migrate_pending. via PO sm_cache. pc. eqs. same1. apply sm_ok. wt.
  - unfold add_rewards. via PO sm_cache. pc. eqs. apply sm_ok. wt.
  - unfold set_migration_sc. eqs. same1. same1. by apply sm_owner_set.
Qed.

(** a whole action *)
Lemma sm_pay_in y ps : forall w v, Forall (fun p => match y_tok p with TokUst _ => False | _ => True end) ps -> fuller w v ->
  sm fuller (pay_in y ps w) (pay_in y ps v).
Proof.
  induction ps as [|p r IH]; intros w v Hy H; cbn [pay_in]; [by apply sm_ok|]. inversion Hy as [|? ? Hp Hr].
  eapply (sm_bind fuller); [|intros a b K; by apply IH].
  destruct (y_tok p) as [|n|] eqn:Ep; [|done|by apply sm_ok].
  eqs. destruct (debit (w_ls w) y (y_amt p)); [|by apply sm_er]. apply sm_ok. wt.
Qed.
Lemma sm_tx y e ps ep w v : Forall (fun p => match y_tok p with TokUst _ => False | _ => True end) ps -> no_withdrawal ep -> fuller w v ->
  sm fuller (exec_tx y e ps ep w) (exec_tx y e ps ep v).
Proof.
  intros Hy Hc H. unfold exec_tx. same1. eapply (sm_bind fuller); [by apply sm_pay_in|]. intros ? ? ?. cbv zeta. same1. same1.
  apply sm_endpoint; [done|]. apply S_set_egld; [|done]. rewrite (S_egld _ _ H0). lia.
Qed.

Lemma away_step w v o : Reachable w -> is_withdrawal o = false -> spends_properly w o -> fuller w v ->
  snd (step v o) = snd (step w o) /\ fuller (fst (step w o)) (fst (step v o)).
Proof.
  intros Hr Hn Hc H. destruct (never_out_of_funds w o Hr) as [F1 F2]. revert F1 F2. unfold step.
  apply S_set_log in H. assert (Hc' : spends_properly (set_log [] w) o) by (by destruct o). clear Hc. revert H Hc'.
  generalize (set_log [] w) (set_log [] v). clear w v Hr. intros w v H Hc.
  destruct o as [y e ps ep|i out|i|d|g t a|n g t a|a|a|c b y|i]; cbn zeta.
  - assert (Hc2 : no_withdrawal ep) by (by destruct ep).
    assert (Hc3 : Forall (fun p => match y_tok p with TokUst _ => False | _ => True end) ps) by (by destruct ep).
    destruct (sm_tx y e ps ep w v Hc3 Hc2 H) as [E|E]; [rewrite E; cbn; done|]. intros _ _.
    destruct (exec_tx y e ps ep w), (exec_tx y e ps ep v); cbn; try done. by subst.
  - intros _ _. rewrite (S_calls _ _ H). destruct (nth_error (w_calls w) i) as [k|]; [|done].
    assert (K : match exec_call k out w, exec_call k out v with Some (r, a), Some (r', b) => r' = r /\ fuller a b | None, None => True | _, _ => False end).
    { destruct out as [z|]; [|done]. unfold exec_call, live_of. rewrite (S_live _ _ H).
      destruct k; try done; destruct (default (0, 0) (w_live w !! c)); try (destruct (_ <=? _)); try done; split; try done; wt. }
    destruct (exec_call k out w) as [[r a]|], (exec_call k out v) as [[r' b]|]; try done. destruct K as [-> K]. cbn. split; [done|]. eqs. wt.
  - rewrite (S_res _ _ H). destruct (nth_error (w_res w) i) as [[k r]|]; [|done].
    assert (K : fuller (set_egld (w_egld w + attached k r) (set_res (drop_nth i (w_res w)) w)) (set_egld (w_egld v + attached k r) (set_res (drop_nth i (w_res w)) v))).
    { apply S_set_egld; [rewrite (S_egld _ _ H); lia|]. wt. }
    destruct (sm_callback k r _ _ K) as [E|E]; [rewrite E; cbn; done|]. intros _ _. revert E.
    destruct (callback k r _), (callback k r _); cbn; try done. by intros ->.
  - intros _ _. rewrite (S_epoch _ _ H). destruct (_ <? _); [|done]. split; [done|]. cbn. wt.
  - intros _ _. rewrite (S_ls _ _ H). destruct (_ =? _); [done|]. destruct (debit _ _ _); [|done]. split; [done|]. cbn. wt.
  - intros _ _. destruct (_ =? _); [done|]. cbn in Hc. unfold ust_of in Hc. pose proof (sm_debit (w_ust w) (w_ust v) n g a (S_more _ _ H)) as K.
    unfold debit in *. rewrite (S_more _ _ H n g) in K |- *. replace (a <=? amt_at (w_ust w) (n, g)) with true in * by lia.
    replace (a <=? amt_at (w_ust w) (n, g) + f n g) with true in * by lia. destruct K as [K|K]; [discriminate K|]. split; [done|]. cbn. apply S_set_ust; [by apply more_credit|done].
  - intros _ _. split; [done|]. cbn. apply S_set_egld; [rewrite (S_egld _ _ H); lia|done].
  - intros _ _. split; [done|]. cbn. wt.
  - intros _ _. split; [done|]. cbn. eqs. wt.
  - intros _ _. rewrite (S_res _ _ H). destruct (nth_error (w_res w) i) as [[k r]|]; [|done]. split; [done|]. cbn.
    apply S_set_egld; [rewrite (S_egld _ _ H); lia|]. wt.
Qed.

Lemma S_sent y w v : fuller w v -> egld_sent y v = egld_sent y w.
Proof.
  intros (V & g & -> & _ & H). unfold egld_sent. cbn.
  assert (K : forall l, sumN (map (egld_to y) l) = sumN (map (egld_to y) (List.filter sends l))).
  { clear. induction l as [|e l IH]; [done|]. cbn. destruct e; cbn; rewrite IH; done. }
  by rewrite (K g), H, <- K.
Qed.

End more.

Lemma withdrawal_step w o : is_withdrawal o = true -> spends_properly w o ->
  let w' := fst (step w o) in let s := snd (step w o) in
  (forall y, egld_sent y w' = withdrawn_by y w o s w')
  /\ (forall n, tokens_given n SELF w o s w' = 0)
  /\ exists g, fuller (withdrawal w o s w') (fun n y => tokens_given n y w o s w') w' (set_log g w).
Proof.
  intros Ho He. destruct o as [u e l ep| | | | | | | | |]; try done. destruct ep; try done. clear Ho. cbn [spends_properly] in He.
  assert (K : snd (step w (OTx u e l Withdraw)) = SOk \/ (snd (step w (OTx u e l Withdraw)) <> SOk /\ fst (step w (OTx u e l Withdraw)) = set_log [] w)).
  { unfold step. cbv zeta. destruct (exec_tx _ _ _ _ _); [by left|by right]. }
  cbv zeta. destruct K as [Ha|[Ha K]].
  - pose proof (withdraw_effects w u e l Ha) as (A1 & A2 & A3 & A4 & A5 & A6 & A7 & A8 & A9 & A10 & A11 & (A12 & A13 & A14 & A15 & A16 & A17 & A18 & A19 & A20) & A21 & A22).
    unfold withdrawn_by, tokens_given, withdrawal. rewrite Ha.
    set (w1 := fst (step w (OTx u e l Withdraw))) in *.
    pose proof (withdraw_done w u e l Ha) as (U' & Hu & _ & _ & _ & _ & _ & _ & _ & _ & _ & Hw). cbv zeta in Hw. fold w1 in Hw.
    split. { intros y. destruct (N.eqb_spec u y) as [->|Hn]; [done|].
      rewrite Hw. unfold egld_sent. cbn. rewrite !map_app, !sumN_app. rewrite back_log_egld. cbn. replace (u =? y) with false by lia. lia. }
    clear Hw.
    split. { intros n. by destruct (N.eqb_spec u SELF). }
    exists (w_log w1), (w_ust w), (w_log w1). split; [|split; [|done]].
    + unfold contract_egld in A3.
      set (q := egld_sent u w1) in *. assert (E1 : more_pot q (w_pool w1) = w_pool w).
      { rewrite A7. unfold more_pot, set_withdrawn, total_withdrawn in *. destruct (w_pool w). cbn in *. f_equal. lia. }
      rewrite E1. assert (E2 : w_egld w1 + q = w_egld w) by lia. rewrite E2.
      clear - A8 A9 A10 A11 A12 A13 A14 A15 A16 A17 A18 A19 A20. clearbody w1. destruct w, w1. cbn in *. by subst.
    + intros n y. change (amt_at (w_ust w) (n, y)) with (ust_of n y w). change (amt_at (w_ust w1) (n, y)) with (ust_of n y w1).
      destruct (decide (u = y)) as [Hy|Hn].
      * rewrite <- Hy, N.eqb_refl. specialize (A6 n). lia.
      * replace (u =? y) with false by lia. rewrite A5 by congruence. lia.
  - rewrite K. set (s := snd _) in *. clearbody s. unfold withdrawn_by, tokens_given, withdrawal. destruct s; try done.
    all: split; [done|]; split; [done|]; exists [], (w_ust w), []; split; [|split; [|done]];
      [unfold more_pot, set_withdrawn; destruct w as [? [] ? ? ? ? ? ? ? ? ? ? ? ? ? ? ?]; cbn; unfold set_log, set_ust, set_pool, set_egld; cbn; by rewrite !N.add_0_r
      |intros n y; cbn; lia].
Qed.

Lemma fuller_ext x f f' w v : (forall n y, f n y = f' n y) -> fuller x f w v -> fuller x f' w v.
Proof. intros H (V & g & -> & H1 & H2). exists V, g. split; [done|]. split; [|done]. intros n y. rewrite <- H. apply H1. Qed.

Lemma fuller_more x z f k w w' v g : fuller x f w (set_log g v) -> (exists h, fuller z k w' (set_log h w)) ->
  exists h, fuller (z + x) (fun n y => k n y + f n y) w' (set_log h v).
Proof.
  intros (V1 & g1 & E1 & U1 & F1) (h & V2 & g2 & E2 & U2 & F2). exists (w_log w'), (w_ust v), (w_log w').
  assert (EV : w_ust v = V1) by (by apply (f_equal w_ust) in E1). assert (EW : w_ust w = V2) by (by apply (f_equal w_ust) in E2).
  split; [|split; [|done]].
  - clear U1 U2 F1 F2 EV EW.
    destruct w as [? [] ? ? ? ? ? ? ? ? ? ? ? ? ? ? ?], w' as [? [] ? ? ? ? ? ? ? ? ? ? ? ? ? ? ?], v as [? [] ? ? ? ? ? ? ? ? ? ? ? ? ? ? ?].
    unfold set_log, set_ust, set_pool, set_egld, more_pot, set_withdrawn in *. cbn in *. inversion E1. inversion E2. subst.
    repeat match goal with |- World _ _ _ _ _ _ _ _ _ _ _ _ _ _ _ _ _ = _ => f_equal | |- Pool _ _ _ _ _ _ _ = _ => f_equal end; try done; try lia.
  - intros n y. rewrite EV, U1, EW, U2. lia.
Qed.

Lemma away_history os : forall x f w v g, (forall n, f n SELF = 0) -> Reachable w ->
  along spends_properly w os -> fuller x f w (set_log g v) ->
  statuses_besides w os = statuses v (without_withdrawals os)
  /\ (forall y, egld_received y w os = egld_received y v (without_withdrawals os) + tally (withdrawn_by y) w os)
  /\ exists h, fuller (tally withdrawal w os + x) (fun n y => tally (tokens_given n y) w os + f n y) (run w os) (set_log h (run v (without_withdrawals os))).
Proof.
  induction os as [|o os IH]; intros x f w v g Hf Hr Ha H; [cbn; eauto|].
  assert (Hr' : Reachable (fst (step w o))) by by apply reach_step. destruct Ha as [Ha1 Ha].
  unfold without_withdrawals. cbn [List.filter statuses_besides egld_received run tally]. destruct (is_withdrawal o) eqn:Ho; cbn [negb].
  - destruct (withdrawal_step w o Ho Ha1) as (C1 & C2 & C3). destruct (fuller_more _ _ _ _ _ _ _ _ H C3) as [k Hk].
    assert (Hf' : forall n, (fun n y => tokens_given n y w o (snd (step w o)) (fst (step w o)) + f n y) n SELF = 0).
    { intros n. cbv beta. rewrite C2, Hf. done. }
    destruct (IH _ _ _ _ _ Hf' Hr' Ha Hk) as (I1 & I2 & h & I3). cbn [app]. split; [exact I1|].
    split. { intros y. rewrite C1, I2. unfold without_withdrawals. lia. }
    exists h. rewrite (N.add_comm (withdrawal _ _ _ _)), <- N.add_assoc. eapply fuller_ext; [|exact I3]. intros n y. cbv beta. lia.
  - destruct (away_step x f Hf w _ o Hr Ho Ha1 H) as [E K]. rewrite step_log in E, K.
    assert (K' : fuller x f (fst (step w o)) (set_log (w_log (fst (step v o))) (fst (step v o)))) by (by destruct (fst (step v o))).
    destruct (IH _ _ _ _ _ Hf Hr' Ha K') as (I1 & I2 & h & I3). cbn [statuses egld_received run app]. rewrite E. split; [by rewrite I1|].
    assert (Z1 : forall y, withdrawn_by y w o (snd (step w o)) (fst (step w o)) = 0) by (intros y; destruct o as [? ? ? ep| | | | | | | | |]; try done; by destruct ep).
    assert (Z2 : withdrawal w o (snd (step w o)) (fst (step w o)) = 0) by (destruct o as [? ? ? ep| | | | | | | | |]; try done; by destruct ep).
    assert (Z3 : forall n y, tokens_given n y w o (snd (step w o)) (fst (step w o)) = 0) by (intros n y; destruct o as [? ? ? ep| | | | | | | | |]; try done; by destruct ep).
    split. { intros y. rewrite (S_sent x f y _ _ K), Z1, I2. unfold without_withdrawals. lia. }
    exists h. rewrite Z2. eapply fuller_ext; [|exact I3]. intros n y. cbv beta. rewrite Z3. done.
Qed.

Lemma away_same w os : Reachable w -> along spends_properly w os ->
  let qs := without_withdrawals os in let z := run w os in let z' := run w qs in let x := tally withdrawal w os in
  statuses_besides w os = statuses w qs
  /\ (forall y, egld_received y w os = egld_received y w qs + tally (withdrawn_by y) w os)
  /\ total_withdrawn z + x = total_withdrawn z' /\ contract_egld z + x = contract_egld z'
  /\ (forall n y, ust_of n y z + tally (tokens_given n y) w os = ust_of n y z')
  /\ forall p, match p with Pot | Balance | UstOf _ _ => False | _ => True end -> same p z z'.
Proof.
  intros Hr Ha qs z z' x.
  assert (H : fuller 0 (fun _ _ => 0) w (set_log (w_log w) w)).
  { exists (w_ust w), (w_log w). split; [|split; [|done]].
    - unfold more_pot, set_withdrawn. destruct w as [? [] ? ? ? ? ? ? ? ? ? ? ? ? ? ? ?]. cbn.
      unfold set_log, set_ust, set_pool, set_egld. cbn. by rewrite !N.add_0_r.
    - intros n y. lia. }
  destruct (away_history os 0 _ w w _ (fun _ => eq_refl) Hr Ha H) as (I1 & I2 & h & I3). fold qs z z' x in I1, I2, I3. rewrite N.add_0_r in I3.
  split; [done|]. split; [done|].
  pose proof (S_pool _ _ _ _ I3) as P1. pose proof (S_egld _ _ _ _ I3) as E1. cbn in P1, E1.
  split; [unfold total_withdrawn; by rewrite P1|]. split; [by unfold contract_egld|].
  split. { intros n y. pose proof (S_ust _ _ _ _ n y I3) as U1. cbn in U1. unfold ust_of. lia. }
  pose proof (S_cfg _ _ _ _ I3) as G1. pose proof (S_dl _ _ _ _ I3) as G2. pose proof (S_ul _ _ _ _ I3) as G3.
  pose proof (S_pv _ _ _ _ I3) as G4. pose proof (S_un _ _ _ _ I3) as G5. pose proof (S_ls _ _ _ _ I3) as G6.
  pose proof (S_attr _ _ _ _ I3) as G7. pose proof (S_last _ _ _ _ I3) as G8. pose proof (S_epoch _ _ _ _ I3) as G9.
  pose proof (S_owner _ _ _ _ I3) as G10. pose proof (S_calls _ _ _ _ I3) as G11. pose proof (S_res _ _ _ _ I3) as G12.
  pose proof (S_live _ _ _ _ I3) as G13. cbn in G1, G2, G3, G4, G5, G6, G7, G8, G9, G10, G11, G12, G13.
  intros p Np. destruct p; try done; cbn [same]; unfold ls_supply, virtual_reserve, fees_reserve, pending_egld, unstake_queue, unbonding, live_of, ls_balance;
    rewrite ?P1, ?G1, ?G2, ?G3, ?G4, ?G5, ?G6, ?G7, ?G8, ?G9, ?G10, ?G11, ?G12, ?G13; try done; auto.
Qed.
