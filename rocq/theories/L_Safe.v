(** L_Safe.v — calls that cannot fail: transfers are always covered; forward
    lemmas for the user endpoints. *)
From Verif Require Export L_Flow.

(** * No abort for lack of funds *)
Definition nf {A} (r : res A) : Prop := r <> Er EFunds.

Lemma nf_ok {A} (a : A) : nf (Ok a). Proof. done. Qed.
Lemma nf_er {A} e : e <> EFunds -> nf (@Er A e). Proof. intros H [= ->]. done. Qed.
Lemma nf_bind {A B} (x : res A) (f : A -> res B) :
  nf x -> (forall a, x = Ok a -> nf (f a)) -> nf (rbind x f).
Proof. intros H1 H2. destruct x as [a|e]; cbn; [by apply H2|]. intros [= ->]. by apply H1. Qed.
Lemma nf_require b e : e <> EFunds -> nf (require b e).
Proof. intros H. unfold require. destruct b; [done|by apply nf_er]. Qed.
Lemma nf_sub a b : nf (sub a b). Proof. unfold sub. by destruct (b <=? a). Qed.
Lemma nf_div a b : nf (div a b). Proof. unfold div. by destruct (b =? 0). Qed.
Lemma nf_get_prov pv c : nf (get_prov pv c). Proof. unfold get_prov. by destruct (pv !! c). Qed.
Lemma nf_usize a : nf (to_usize a). Proof. unfold to_usize. by destruct (a <? U64). Qed.
Lemma nf_unwrap {A} (o : option A) : nf (unwrap o). Proof. by destruct o. Qed.
Lemma nf_cache w : nf (cache_new w).
Proof. unfold cache_new, ls_token_id. by destruct (c_lstok (w_cfg w)). Qed.
Lemma nf_ust_id w : nf (unstake_token_id w).
Proof. unfold unstake_token_id. by destruct (c_usttok (w_cfg w)). Qed.

Ltac nf1 :=
  match goal with
  | |- nf (Ok _) => apply nf_ok
  | |- nf (Er _) => apply nf_er; done
  | |- nf (rbind _ _) => apply nf_bind; [|intros ? ?]
  | |- nf (require _ _) => apply nf_require; done
  | |- nf (sub _ _) => apply nf_sub
  | |- nf (div _ _) => apply nf_div
  | |- nf (get_prov _ _) => apply nf_get_prov
  | |- nf (to_usize _) => apply nf_usize
  | |- nf (unwrap _) => apply nf_unwrap
  | |- nf (cache_new _) => apply nf_cache
  | |- nf (unstake_token_id _) => apply nf_ust_id
  | |- nf (if ?b then _ else _) => destruct b eqn:?
  | |- nf (let '(_, _) := ?p in _) => destruct p eqn:?
  | |- nf (match ?p with (_, _) => _ end) => destruct p eqn:?
  | |- nf (match ?o with Some _ => _ | None => _ end) => destruct o eqn:?
  end.
Ltac nfs := repeat nf1.

Lemma nf_norm v mn mx b : nf (norm_linear_clamp v mn mx b).
Proof. unfold norm_linear_clamp. nfs. Qed.
Lemma nf_avail p : nf (avail p).
Proof. unfold avail. nfs. Qed.
Lemma nf_score_of i b t c : nf (score_of i b t c).
Proof. unfold score_of, node_score, apy_score, stake_score. nfs; apply nf_norm. Qed.
Lemma nf_score_all l b t c : nf (score_all l b t c).
Proof. induction l as [|i r IH]; cbn; nfs; [apply nf_score_of|done]. Qed.
Lemma nf_prov_eligible p : nf (prov_eligible p).
Proof. unfold prov_eligible. nfs. apply nf_avail. Qed.
Lemma nf_mk_info c p : nf (mk_info c p).
Proof. unfold mk_info. nfs. apply nf_avail. Qed.
Lemma nf_sel_deleg_loop l pv mp n : nf (sel_deleg_loop l pv mp n).
Proof.
  revert n. induction l as [|c r IH]; intros n; cbn; nfs; try apply IH;
    try apply nf_prov_eligible; try apply nf_avail; apply nf_mk_info.
Qed.
Lemma nf_take s a : nf (amount_to_take s a).
Proof. unfold amount_to_take. nfs. Qed.
Lemma nf_sel_undel_loop l pv h mp av rem n : nf (sel_undel_loop l pv h mp av rem n).
Proof.
  revert rem n. induction l as [|c r IH]; intros rem n; cbn; nfs; try apply IH;
    try apply nf_take; try apply nf_avail; apply nf_mk_info.
Qed.
Lemma nf_provider_amount i ta rem ts b : nf (provider_amount i ta rem ts b).
Proof. unfold provider_amount. cbv zeta. nfs. Qed.
Lemma nf_distribute_loop l am rem ts b : nf (distribute_loop l am rem ts b).
Proof. revert rem. induction l as [|i r IH]; intros rem; cbn; nfs; try apply IH; apply nf_provider_amount. Qed.
Lemma nf_remaining_loop l rem b : nf (remaining_loop l rem b).
Proof. revert rem. induction l as [|d r IH]; intros rem; cbn; nfs; apply IH. Qed.
Lemma nf_get_delegation a b dl ul pv g c : nf (get_delegation_contract a b dl ul pv g c).
Proof.
  unfold get_delegation_contract, select_deleg, select_undel, calc_max_providers, distribute_amount, get_scoring_config.
  cbv zeta.
  nfs; try apply nf_sel_deleg_loop; try apply nf_sel_undel_loop; try apply nf_score_all;
    try apply nf_distribute_loop; apply nf_remaining_loop.
Qed.

(** * Unstake tokens can always be issued *)
Lemma token_attributes_ok n w e u :
  w_attr w !! n = Some (e, u) -> 1 <= ubal w n SELF -> token_attributes n w = Ok (e, u).
Proof.
  intros H1 H2. unfold token_attributes. destruct (0 <? ubal w n SELF) eqn:B; [|lia]. by rewrite H1.
Qed.

Lemma issue_ok caller a u w :
  UstInv w -> c_usttok (w_cfg w) = TIssued ->
  exists n w1 w2, mint_unstake_tokens (w_epoch w, u) a u (w_epoch w) w = Ok (n, w1)
    /\ send_ust caller n a w1 = Ok w2.
Proof.
  intros [H1 H2 H3 H4 H5] Ht. unfold mint_unstake_tokens, unstake_token_id. rewrite Ht. cbn [rbind].
  destruct (w_un w !! u) as [n|] eqn:Eu.
  - destruct (H1 _ _ Eu) as (_ & _ & Hb). unfold nft_add, ubal.
    destruct (0 <? amt_at (w_ust w) (n, SELF)) eqn:B; [|lia]. cbn [rbind].
    do 3 eexists. split; [reflexivity|]. unfold send_ust. cbn. unfold credit at 1. rewrite debit_ust_eq. reflexivity.
  - unfold nft_create. cbn.
    destruct (1 <? w_last w + 1) eqn:B.
    + destruct H2 as (e0 & u0 & Ha & Hu); [lia|]. destruct (H1 _ _ Hu) as (_ & _ & Hb).
      replace (w_last w + 1 - 1) with (w_last w) by lia.
      unfold clean_old_unbond_epochs.
      rewrite (token_attributes_ok _ _ e0 u0).
      2: { cbn. rewrite lookup_insert_ne by lia. done. }
      2: { unfold ubal; cbn. rewrite amt_credit. case_decide; lia. }
      cbn [rbind]. destruct (e0 <? w_epoch w) eqn:Be.
      * unfold nft_burn. cbn. rewrite debit_le by (unfold ubal; cbn; lia). cbn.
        do 3 eexists. split; [reflexivity|]. unfold send_ust. cbn. unfold ubal; cbn.
        rewrite N.sub_diag. unfold credit. rewrite insert_commute by (intros [=]; lia).
        replace (amt_at (w_ust w) (w_last w + 1, SELF) + (a + 1)) with
          (amt_at (w_ust w) (w_last w + 1, SELF) + 1 + a) by lia.
        rewrite debit_ust_eq. reflexivity.
      * cbn. do 3 eexists. split; [reflexivity|]. unfold send_ust. cbn. unfold credit.
        replace (amt_at (w_ust w) (w_last w + 1, SELF) + (a + 1)) with
          (amt_at (w_ust w) (w_last w + 1, SELF) + 1 + a) by lia.
        rewrite debit_ust_eq. reflexivity.
    + cbn. do 3 eexists. split; [reflexivity|]. unfold send_ust. cbn. unfold credit.
      replace (amt_at (w_ust w) (w_last w + 1, SELF) + (a + 1)) with
        (amt_at (w_ust w) (w_last w + 1, SELF) + 1 + a) by lia.
      rewrite debit_ust_eq. reflexivity.
Qed.

(** * delegate *)
Lemma delegate_ok caller a w :
  c_lstok (w_cfg w) = TIssued -> c_active (w_cfg w) = true -> MIN_EGLD <= a -> 0 < minted a (w_pool w) ->
  exists w', delegate caller a w = Ok w'.
Proof.
  intros H1 H2 H3 H4. pose proof MIN_pos as HM.
  unfold delegate, cache_new, ls_token_id, is_state_active. rewrite H1, H2. cbn [require rbind].
  destruct (0 <? a) eqn:B; [|lia]. cbn [require rbind]. rewrite action_eq. cbn [rbind].
  pose proof (split_facts (pfu (w_pool w)) a) as Hs. cbv zeta in Hs.
  destruct (split_of (pfu (w_pool w)) a) as [i r] eqn:Es. cbn [fst snd] in Hs.
  destruct Hs as (Ha & Hi & Hq & Hr). specialize (Hr H3).
  unfold process_delegation.
  assert (E1 : (if 0 <? i then decrease_pending_egld i 0 (w_pool w) else Ok (w_pool w, 0))
    = Ok (Pool (supply (w_pool w)) (reserve (w_pool w)) (fees_res (w_pool w)) (withdrawn (w_pool w) + i)
           (pend (w_pool w)) (pfu (w_pool w) - i) (pfb (w_pool w)), i)).
  { destruct (0 <? i) eqn:Bi.
    - unfold decrease_pending_egld. rewrite sub_le by done. cbn.
      destruct ((MIN_EGLD <=? pfu (w_pool w) - i) || (pfu (w_pool w) - i =? 0)) eqn:Bq; [done|].
      apply orb_false_iff in Bq. lia.
    - assert (i = 0) as -> by lia. rewrite N.add_0_r, N.sub_0_r. by destruct (w_pool w). }
  rewrite E1. cbn [rbind].
  match goal with |- context [increase_pending_egld r i ?P] =>
    assert (E2 : (if 0 <? r then increase_pending_egld r i P else Ok (P, i))
      = Ok (Pool (supply (w_pool w)) (reserve (w_pool w)) (fees_res (w_pool w)) (withdrawn (w_pool w) + i)
           (pend (w_pool w) + r) (pfu (w_pool w) - i) (pfb (w_pool w)), i + r)) end.
  { destruct (0 <? r) eqn:Br.
    - unfold increase_pending_egld. cbn.
      destruct (MIN_EGLD <=? pend (w_pool w) + r) eqn:Bq; [done|lia].
    - assert (r = 0) as -> by lia. rewrite !N.add_0_r. done. }
  rewrite E2. cbn [rbind]. rewrite Ha, B.
  unfold pool_add_liquidity. rewrite get_ls_amount_ok by exact H4. cbn [rbind].
  rewrite mint_send_ls_ok. cbn. eauto.
Qed.

Lemma nf_delegate caller a w : nf (delegate caller a w).
Proof.
  unfold delegate. nf1; [nfs|]. nf1; [unfold is_state_active; nfs|]. nf1; [nfs|].
  rewrite action_eq. cbn [rbind]. destruct (split_of _ _) as [i r]. nf1; [|nfs].
  unfold process_delegation, decrease_pending_egld, increase_pending_egld.
  nfs; try done.
  - unfold pool_add_liquidity, get_ls_amount. nfs.
  - rewrite mint_send_ls_ok. done.
Qed.

(** * unDelegate *)

Lemma ustinv_paid to a m w : UstInv w -> UstInv (egld_paid to a (set_ls m w)).
Proof. rewrite egld_paid_eq. done. Qed.

Lemma un_delegate_ok caller x w :
  let c := w_pool w in let e := redeemed x c in let r := snd (split_of (pend c) e) in
  c_lstok (w_cfg w) = TIssued -> c_active (w_cfg w) = true -> 0 < x -> x <= supply c -> 0 < e ->
  x <= lbal w SELF -> pend c <= w_egld w ->
  (r = 0 \/ (MIN_EGLD <= pfu c + r /\ c_usttok (w_cfg w) = TIssued /\ UstInv w)) ->
  exists w', un_delegate caller [Pay TokLs x] w = Ok w'.
Proof.
  cbv zeta. intros H1 H2 H3 H4 H5 H6 H7 H8. pose proof MIN_pos as HM.
  unfold un_delegate, cache_new, ls_token_id, is_state_active. rewrite H1, H2. cbn [require rbind y_tok y_amt].
  destruct (0 <? x) eqn:B; [|lia]. cbn [require rbind].
  rewrite pool_remove_ok by done. cbn [rbind]. unfold burn_ls. rewrite debit_le by done. cbn [rbind].
  rewrite action_eq. cbn [rbind]. cbn [pend pool_minus set_reserve set_supply].
  pose proof (split_facts (pend (w_pool w)) (redeemed x (w_pool w))) as Hs. cbv zeta in Hs.
  destruct (split_of (pend (w_pool w)) (redeemed x (w_pool w))) as [i r] eqn:Es. cbn [fst snd] in *.
  destruct Hs as (Ha & Hi & Hq & _).
  unfold process_un_delegation.
  set (w1 := set_ls (<[SELF:=amt_at (w_ls w) SELF - x]> (w_ls w)) w).
  assert (E1 : exists c3, process_instant_redemption caller i (pool_minus x (w_pool w)) w1 = Ok (c3, egld_paid caller i w1) /\ pfu c3 = pfu (w_pool w)).
  { unfold process_instant_redemption, egld_paid. destruct (0 <? i) eqn:Bi; [|by eexists].
    cbn [pend pool_minus set_reserve set_supply]. rewrite sub_le by done. cbn [rbind].
    cbn [pend set_pend]. destruct ((MIN_EGLD <=? pend (w_pool w) - i) || (pend (w_pool w) - i =? 0)) eqn:Bq.
    - cbn [require rbind]. unfold send_egld, take_egld. destruct (i <=? w_egld w1) eqn:Be; [|cbn in Be; lia].
      cbn [rbind]. eexists. split; [done|]. done.
    - apply orb_false_iff in Bq. lia. }
  destruct E1 as (c3 & E1 & Hc3). rewrite E1. cbn [rbind]. unfold undelegate_amount.
  destruct (0 <? r) eqn:Br; [|cbn; eauto].
  destruct H8 as [H8|(H8 & H9 & H10)]; [lia|]. cbn [pfu set_pfu]. rewrite Hc3.
  destruct ((MIN_EGLD <=? pfu (w_pool w) + r) || (pfu (w_pool w) + r =? 0)) eqn:Bq.
  2: { apply orb_false_iff in Bq. lia. }
  cbn [require rbind].
  assert (Hcfg : w_cfg (egld_paid caller i w1) = w_cfg w) by (rewrite egld_paid_eq; done).
  destruct (issue_ok caller r (add64 (w_epoch (egld_paid caller i w1)) (c_unbond (w_cfg (egld_paid caller i w1)))) (egld_paid caller i w1))
    as (n & w4 & w5 & E2 & E3); [by apply ustinv_paid|by rewrite Hcfg|].
  rewrite E2. cbn [rbind]. rewrite E3. cbn. eauto.
Qed.

Lemma nf_un_delegate caller pays w :
  UstInv w -> pend (w_pool w) <= w_egld w ->
  (forall x, pays = [Pay TokLs x] -> x <= lbal w SELF) ->
  nf (un_delegate caller pays w).
Proof.
  intros HU Hp Hl. unfold un_delegate. nf1; [nfs|]. destruct pays as [|[t x] [|]]; try (apply nf_er; done).
  match goal with H : cache_new _ = _ |- _ => apply cache_new_ok in H as [_ ->] end.
  nf1; [unfold is_state_active; nfs|]. nf1; [nfs|]. destruct t; try discriminate. nf1; [nfs|].
  nf1; [unfold pool_remove_liquidity, get_egld_amount; nfs|]. cbn [y_amt] in *.
  match goal with |- nf (match ?p with _ => _ end) => destruct p as [e c1] end.
  match goal with H : pool_remove_liquidity _ _ = _ |- _ => apply pool_remove_inv in H as (-> & _ & _ & _ & _ & ->) end.
  unfold burn_ls. rewrite debit_le by (by apply (Hl x)). cbn [rbind].
  rewrite action_eq. cbn [rbind]. cbn [pend pool_minus set_reserve set_supply].
  pose proof (split_facts (pend (w_pool w)) (redeemed x (w_pool w))) as Hs. cbv zeta in Hs.
  destruct (split_of (pend (w_pool w)) (redeemed x (w_pool w))) as [i r] eqn:Es. cbn [fst snd] in *.
  destruct Hs as (Ha & Hi & Hq & _).
  nf1; [|nfs]. unfold process_un_delegation.
  set (w1 := set_ls (<[SELF:=amt_at (w_ls w) SELF - x]> (w_ls w)) w).
  nf1.
  { unfold process_instant_redemption. nfs. unfold send_egld, take_egld.
    destruct (i <=? w_egld w1) eqn:Be; [done|]. cbn in Be. lia. }
  match goal with |- nf (match ?p with _ => _ end) => destruct p as [c3 w3] end.
  assert (Hw : exists m, w3 = set_log m (set_egld (w_egld w3) w1)).
  { match goal with H : process_instant_redemption _ _ _ _ = _ |- _ => revert H end.
    unfold process_instant_redemption. destruct (0 <? i).
    - intros K. apply rbind_ok in K as [p [_ K]]. apply rbind_ok in K as [[] [_ K]].
      apply rbind_ok in K as [w5 [E5 K]]. injection K as _ <-.
      unfold send_egld in E5. apply rbind_ok in E5 as [w6 [E6 E5]]. apply take_egld_ok in E6 as [_ ->].
      injection E5 as <-. eexists. cbn. reflexivity.
    - intros K. injection K as _ <-. exists (w_log w). by destruct w. }
  destruct Hw as [m Hw].
  assert (HU3 : UstInv w3) by (rewrite Hw; exact HU).
  nf1; [|nfs]. unfold undelegate_amount. destruct (0 <? r); [|done]. nf1; [nfs|].
  destruct (c_usttok (w_cfg w3)) eqn:Et.
  3: { destruct (issue_ok caller r (add64 (w_epoch w3) (c_unbond (w_cfg w3))) w3 HU3 Et) as (n & w4 & w5 & E2 & E3).
       rewrite E2. cbn [rbind]. rewrite E3. done. }
  all: unfold mint_unstake_tokens, unstake_token_id; rewrite Et; done.
Qed.

(** * withdraw *)
Lemma ust_paid_cons k n a r : ust_paid k (Pay (TokUst n) a :: r) = (if n =? k then a else 0) + ust_paid k r.
Proof. done. Qed.

Lemma nf_withdraw_loop caller pays c w s :
  (forall n, ust_paid n pays <= ubal w n SELF) -> nf (withdraw_loop caller pays c w s).
Proof.
  revert c w s. induction pays as [|[t a] r IH]; intros c w s Hb; [done|].
  cbn [withdraw_loop y_tok y_amt]. destruct t as [|n|]; try (apply nf_er; done).
  assert (Hn : a <= amt_at (w_ust w) (n, SELF)).
  { specialize (Hb n). rewrite ust_paid_cons, N.eqb_refl in Hb. unfold ubal in Hb. lia. }
  assert (Hr : forall k v, v + a <= amt_at (w_ust w) (n, SELF) + v ->
     amt_at (<[(n, SELF) := amt_at (w_ust w) (n, SELF) - a]> (w_ust w)) (k, SELF) >= ust_paid k r).
  { intros k v _. specialize (Hb k). rewrite ust_paid_cons in Hb. unfold ubal in *.
    rewrite amt_insert. destruct (N.eqb_spec n k) as [->|Hk].
    - rewrite decide_True by done. lia.
    - rewrite decide_False by congruence. lia. }
  nf1; [nfs|]. nf1; [unfold token_attributes; nfs|].
  match goal with |- nf (match ?p with _ => _ end) => destruct p as [e u] end.
  nf1; [nfs|]. destruct (a <=? withdrawn c) eqn:B1.
  - unfold burn_unstake_tokens, nft_burn. rewrite debit_le by done. cbn [rbind].
    nf1; [nfs|]. apply IH. intros k. specialize (Hr k 0). unfold ubal; cbn. lia.
  - destruct (0 <? withdrawn c) eqn:B2; [|apply nf_er; done].
    unfold burn_unstake_tokens, nft_burn. rewrite debit_le by lia. cbn [rbind].
    rewrite sub_le by lia. cbn [rbind]. unfold send_ust. cbn [w_ust set_ust].
    rewrite debit_le by (rewrite amt_insert, decide_True by done; lia). cbn [rbind].
    apply IH. intros k. specialize (Hr k 0). unfold ubal; cbn. rewrite amt_credit, !amt_insert.
    rewrite amt_insert in Hr. repeat case_decide; simplify_eq; lia.
Qed.

Lemma nf_withdraw caller pays w :
  caller <> SELF -> (forall n, ust_paid n pays <= ubal w n SELF) -> withdrawn (w_pool w) <= w_egld w ->
  nf (withdraw caller pays w).
Proof.
  intros Hc Hb He. unfold withdraw. nf1; [nfs|].
  match goal with H : cache_new _ = _ |- _ => apply cache_new_ok in H as [_ ->] end.
  nf1; [unfold is_state_active; nfs|]. nf1; [nfs|]. nf1; [by apply nf_withdraw_loop|].
  match goal with |- nf (match ?p with _ => _ end) => destruct p as [[c1 w1] s] end.
  match goal with H : withdraw_loop _ _ _ _ _ = _ |- _ =>
    apply withdraw_loop_inv in H as (_ & -> & -> & _ & U' & _ & ->); [|done] end.
  nf1; [|nfs]. unfold send_egld, take_egld.
  match goal with |- context [?x <=? ?y] => destruct (x <=? y) eqn:B end; [done|]. cbn in B. lia.
Qed.

(** withdraw succeeds: the pot covers the tokens *)
Lemma withdraw_loop_ok caller pays c w s :
  Forall (matured w) pays -> (forall n, ust_paid n pays <= ubal w n SELF) -> amounts pays <= withdrawn c ->
  exists x, withdraw_loop caller pays c w s = Ok x.
Proof.
  revert c w s. induction pays as [|[t a] r IH]; intros c w s HF Hb Ha; [cbn; eauto|].
  pose proof (Forall_inv HF) as (n & e & u & Ht & Hp & Hat & Hu). apply Forall_inv_tail in HF. cbn in Ht, Hp. subst t.
  assert (Hn : a <= amt_at (w_ust w) (n, SELF)).
  { specialize (Hb n). rewrite ust_paid_cons, N.eqb_refl in Hb. unfold ubal in Hb. lia. }
  cbn [withdraw_loop y_tok y_amt]. destruct (0 <? a) eqn:B; [|lia]. cbn [require rbind].
  rewrite (token_attributes_ok n w e u) by (done || (unfold ubal; lia)). cbn [rbind].
  destruct (u <=? w_epoch w) eqn:Bu; [|lia]. cbn [require rbind].
  unfold amounts in Ha; cbn in Ha. fold (amounts r) in Ha.
  destruct (a <=? withdrawn c) eqn:B1; [|lia].
  unfold burn_unstake_tokens, nft_burn. rewrite debit_le by done. cbn [rbind].
  rewrite sub_le by lia. cbn [rbind]. apply IH.
  - exact HF.
  - intros k. specialize (Hb k). rewrite ust_paid_cons in Hb. unfold ubal in *. cbn. rewrite amt_insert. destruct (N.eqb_spec n k) as [->|Hk].
    + rewrite decide_True by done. lia.
    + rewrite decide_False by congruence. lia.
  - cbn. lia.
Qed.

Lemma withdraw_ok caller pays w :
  caller <> SELF -> c_lstok (w_cfg w) = TIssued -> c_active (w_cfg w) = true -> c_usttok (w_cfg w) = TIssued ->
  Forall (matured w) pays -> (forall n, ust_paid n pays <= ubal w n SELF) ->
  amounts pays <= withdrawn (w_pool w) -> withdrawn (w_pool w) <= w_egld w ->
  exists w', withdraw caller pays w = Ok w'.
Proof.
  intros Hc H1 H2 H3 HF Hb Ha He.
  unfold withdraw, cache_new, ls_token_id, is_state_active, unstake_token_id. rewrite H1, H2, H3. cbn [require rbind].
  destruct (withdraw_loop_ok caller pays (w_pool w) w 0 HF Hb Ha) as [[[c1 w1] s] E]. rewrite E. cbn [rbind].
  apply withdraw_loop_inv in E as (_ & -> & -> & _ & U' & _ & ->); [|done].
  unfold send_egld, take_egld.
  match goal with |- context [?x <=? ?y] => destruct (x <=? y) eqn:B end; [cbn; eauto|]. cbn in B. lia.
Qed.

(** * The other endpoints *)
Lemma nf_batch_amount o q : nf (batch_amount o q).
Proof. unfold batch_amount. nfs. Qed.

Lemma nf_delegate_pending caller o w :
  pend (w_pool w) <= w_egld w -> nf (delegate_pending caller o w).
Proof.
  intros He. unfold delegate_pending. nf1; [nfs|].
  match goal with H : cache_new _ = _ |- _ => apply cache_new_ok in H as [_ ->] end.
  nf1; [unfold is_state_active; nfs|]. nf1; [unfold is_manager; nfs|]. nf1; [apply nf_batch_amount|].
  match goal with H : batch_amount _ _ = _ |- _ => apply batch_amount_inv in H as (Ha & _ & _) end.
  nf1; [apply nf_get_delegation|].
  match goal with |- nf (match ?p with _ => _ end) => destruct p as [ds c1] end.
  match goal with H : get_delegation_contract _ _ _ _ _ _ _ = _ |- _ => apply get_deleg_inv in H as (_ & Hs & _ & Hd & _) end.
  nf1; [nfs|]. rewrite delegate_batch_ok; [done|lia|by apply deleg_sel_recs].
Qed.

Lemma nf_un_delegate_pending caller o w : nf (un_delegate_pending caller o w).
Proof.
  unfold un_delegate_pending. nf1; [nfs|].
  match goal with H : cache_new _ = _ |- _ => apply cache_new_ok in H as [_ ->] end.
  nf1; [unfold is_state_active; nfs|]. nf1; [unfold is_manager; nfs|]. nf1; [apply nf_batch_amount|].
  nf1; [apply nf_get_delegation|].
  match goal with |- nf (match ?p with _ => _ end) => destruct p as [ds c1] end.
  match goal with H : get_delegation_contract _ _ _ _ _ _ _ = _ |- _ => apply get_undel_inv in H as (_ & Hs & _) end.
  nf1; [nfs|]. rewrite undelegate_batch_ok; [done|by apply undel_sel_recs].
Qed.

Lemma nf_register k a w : a <= w_egld w -> nf (register k a w).
Proof. intros H. by rewrite register_ok. Qed.

Lemma nf_migration_caller caller w : nf (migration_caller caller w).
Proof. unfold migration_caller. nfs. Qed.

Lemma nf_pool_add a c : nf (pool_add_liquidity a c).
Proof. unfold pool_add_liquidity, get_ls_amount. nfs. Qed.

Lemma nf_owner_set caller f w : nf (owner_set caller f w).
Proof. unfold owner_set, only_owner. nfs. Qed.

Lemma nf_upd_prov c f w : (forall p, nf (f p)) -> nf (upd_prov c f w).
Proof. intros H. unfold upd_prov. nf1; [nfs|]. nf1; [apply H|]. done. Qed.

Lemma nf_pay_in caller pays w : nf (pay_in caller pays w).
Proof.
  revert w. induction pays as [|p r IH]; intros w; cbn; [done|]. nf1; [|apply IH].
  destruct (y_tok p); [destruct (debit _ _ _); done|destruct (debit _ _ _); done|done].
Qed.

Lemma pay_in_frame caller pays w w1 :
  caller <> SELF -> pay_in caller pays w = Ok w1 -> exists L U, w1 = set_ust U (set_ls L w) /\
    (forall n, ust_paid n pays <= amt_at U (n, SELF)) /\
    (forall x, pays = [Pay TokLs x] -> x <= amt_at L SELF) /\
    (forall n, amt_at (w_ust w) (n, SELF) <= amt_at U (n, SELF)) /\
    (forall n a, 0 < amt_at U (n, a) -> exists b, 0 < amt_at (w_ust w) (n, b)).
Proof.
  intros Hc H. pose proof H as H0. apply pay_in_inv in H as (L & U & (P1 & P2 & P3 & P4 & P5 & P6 & P7 & P8) & ->); [|done].
  exists L, U. split_and!.
  - by destruct w.
  - intros n. specialize (P5 n). lia.
  - intros x ->. cbn in P1. lia.
  - intros n. specialize (P5 n). lia.
  - intros n a Ha. destruct (decide (a = SELF)) as [->|H1].
    + specialize (P5 n). specialize (P6 n).
      destruct (N.eqb_spec (amt_at (w_ust w) (n, SELF)) 0) as [E|E].
      * exists caller. lia.
      * exists SELF. lia.
    + destruct (decide (a = caller)) as [->|H2].
      * exists caller. specialize (P6 n). lia.
      * exists a. rewrite <- P7 by done. done.
Qed.

Lemma ustinv_paid_in caller pays w w1 :
  caller <> SELF -> UstInv w -> pay_in caller pays w = Ok w1 -> UstInv w1.
Proof.
  intros Hc HU H. apply pay_in_frame in H as (L & U & -> & _ & _ & H1 & H2); [|done].
  unfold UstInv in *. cbn. eapply ust_mono; [exact HU|lia|done|].
  intros n a Ha. apply H2 in Ha as [b Hb]. eapply (u_bal _ _ _ _ _ HU). exact Hb.
Qed.

Lemma nf_tx caller a pays ep w :
  Acct w -> UstInv w -> nf (exec_tx caller a pays ep w).
Proof.
  intros HA HU. unfold exec_tx. nf1; [nfs|].
  match goal with H : require (negb _) _ = _ |- _ => apply require_ok in H; rename H into Hc end.
  assert (Hcs : caller <> SELF) by (intros ->; by rewrite N.eqb_refl in Hc). clear Hc.
  nf1; [apply nf_pay_in|]. match goal with H : pay_in _ _ _ = Ok ?x |- _ => rename x into w1; rename H into Hin end.
  pose proof (ustinv_paid_in _ _ _ _ Hcs HU Hin) as HU1.
  destruct (pay_in_frame _ _ _ _ Hcs Hin) as (L & U & -> & Hn & Hx & _).
  destruct HA as [HA1 HA2 HA3].
  nf1; [unfold payment_ok; destruct (payable_of ep); nfs|]. nf1; [nfs|].
  destruct ep; cbn [run_endpoint].
  - apply nf_delegate.
  - apply nf_un_delegate; [exact HU1|cbn; lia|]. intros x Hp. exact (Hx x Hp).
  - apply nf_withdraw; [done|exact Hn|cbn; lia].
  - apply nf_delegate_pending. cbn; lia.
  - apply nf_un_delegate_pending.
  - unfold withdraw_pending, is_manager, is_state_active. nfs. apply nf_register. lia.
  - unfold claim_rewards, is_manager, is_state_active. nfs. apply nf_register. lia.
  - unfold claim_fees, claim_fees_with. nf1; [nfs|].
    match goal with H : cache_new _ = _ |- _ => apply cache_new_ok in H as [_ ->] end. nf1; [nfs|]. nf1; [nfs|].
    nf1; [|nfs]. unfold take_egld. match goal with |- context [?x <=? ?y] => destruct (x <=? y) eqn:B end; [done|]. cbn in B. lia.
  - unfold whitelist, is_manager. cbv zeta. nfs. apply nf_register. cbn. lia.
  - unfold change_admin, is_manager. nfs. apply nf_upd_prov. done.
  - unfold change_params. nfs. apply nf_upd_prov. done.
  - unfold register_ls_token, only_owner. nf1; [nfs|]. destruct (c_lstok _); nfs. apply nf_register. cbn; lia.
  - unfold register_unstake_token, only_owner. nf1; [nfs|]. destruct (c_usttok _); nfs. apply nf_register. cbn; lia.
  - apply nf_owner_set.
  - apply nf_owner_set.
  - apply nf_owner_set.
  - apply nf_owner_set.
  - apply nf_owner_set.
  - unfold set_max_addresses, only_owner. nfs. apply nf_owner_set.
  - unfold set_max_selected, only_owner. nfs. apply nf_owner_set.
  - apply nf_owner_set.
  - apply nf_owner_set.
  - apply nf_owner_set.
  - unfold set_scoring_config, is_manager. nfs.
  - unfold migrate. nf1; [nfs|]. nf1; [apply nf_migration_caller|]. nf1; [apply nf_pool_add|].
    match goal with |- nf (match ?p with _ => _ end) => destruct p as [m c1] end.
    match goal with |- context [send_ls caller m (emit ?e (mint_ls m ?x))] =>
      change (emit e (mint_ls m x)) with (mint_ls m (emit e x)) end.
    rewrite mint_send_ls_ok. done.
  - unfold migrate_pending. nf1; [nfs|]. nf1; [apply nf_migration_caller|]. done.
  - unfold add_rewards. nfs.
  - unfold set_migration_sc, only_owner. nfs. apply nf_owner_set.
Qed.

Lemma nf_callback k r w :
  nf (callback k r (recv (attached k r) w)).
Proof.
  destruct k; cbn [callback].
  - unfold add_liquidity_callback. nf1; [nfs|]. destruct (is_done r); (nf1; [apply nf_upd_prov; intros; nfs|done]).
  - unfold remove_liquidity_callback. nf1; [nfs|]. nf1.
    + destruct (is_done r); (nf1; [apply nf_upd_prov; intros; nfs|done]).
    + match goal with |- nf (match ?p with _ => _ end) => destruct p end. done.
  - unfold withdraw_tokens_callback. nf1; [|done]. nf1; [nfs|]. nf1; [nfs|]. nf1; [apply nf_upd_prov; intros; nfs|]. done.
  - unfold claim_rewards_callback. destruct r; [done|]. nfs.
  - unfold whitelist_callback. nf1; [nfs|]. destruct r as [|v]; cbn [is_done].
    + nf1; [|done]. unfold send_egld, take_egld. cbn. destruct (amt <=? w_egld w + amt) eqn:B; [done|lia].
    + nf1; [apply nf_upd_prov; intros; nfs|]. nf1; [apply nf_pool_add|].
      match goal with |- nf (match ?p with _ => _ end) => destruct p as [m c1] end.
      match goal with |- context [send_ls who m (emit ?e (mint_ls m ?x))] =>
        change (emit e (mint_ls m x)) with (mint_ls m (emit e x)) end.
      rewrite mint_send_ls_ok. done.
  - unfold issue_callback. destruct r as [|v]; cbn [is_done attached]; [|done].
    destruct (0 <? amt) eqn:B; [|done]. unfold send_egld, take_egld.
    match goal with |- context [?x <=? ?y] => destruct (x <=? y) eqn:B1 end; [done|]. cbn in B1. lia.
Qed.

Lemma never_out_of_funds w o :
  Reachable w -> snd (step w o) <> SErr EFunds /\ snd (step w o) <> SCbFail EFunds.
Proof.
  intros Hr. pose proof (acct w Hr) as HA. pose proof (ust w Hr) as HU.
  unfold step. destruct o; cbn [snd].
  - destruct (exec_tx _ _ _ _ _) as [w'|e] eqn:E; cbn; [done|]. split; [|done]. intros [= ->].
    revert E. apply nf_tx; [|exact HU]. destruct HA as [? ? ?]. by split.
  - destruct (nth_error _ _); [|done]. destruct (exec_call _ _ _) as [[? ?]|]; done.
  - destruct (nth_error _ _) as [[k r]|]; [|done].
    destruct (callback _ _ _) as [w'|e] eqn:E; cbn; [done|]. split; [done|]. intros [= ->].
    exact (nf_callback k r (set_res (drop_nth i (w_res (set_log [] w))) (set_log [] w)) E).
  - destruct (_ <? _); done.
  - destruct (_ =? _); [done|]. destruct (debit _ _ _); done.
  - destruct (_ =? _); [done|]. destruct (debit _ _ _); done.
  - done.
  - done.
  - done.
  - destruct (nth_error _ _) as [[k r]|]; done.
Qed.
