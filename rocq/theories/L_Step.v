(** L_Step.v — every action in closed form. [did w o w' s]: from [w] (with an
    empty log) action [o] leads to [w'] with status [s]. *)
From Verif Require Export L_Inv3.

Definition recv (a : N) (w : world) : world := set_egld (w_egld w + a) w.

(** ledger of unstake tokens after a successful withdraw, payments included *)
Definition wd_post (caller : N) (pays : list pay) (pot : N) (U U' : gmap (N * N) N) : Prop :=
  let g := given_back pays pot in
  (forall n, amt_at U' (n, SELF) = amt_at U (n, SELF))
  /\ (forall n, amt_at U' (n, caller) + ust_paid n pays = amt_at U (n, caller) + back_of g n)
  /\ (forall n a, a <> SELF -> a <> caller -> amt_at U' (n, a) = amt_at U (n, a))
  /\ users_ust U' + amounts pays = users_ust U + back_total g.

Inductive did (w : world) : op -> world -> status -> Prop :=
| d_none o s :
    match s with SOk | SCbFail _ => False | _ => True end -> did w o w s
| d_delegate caller a :
    let c := w_pool w in let r := snd (split_of (pfu c) a) in
    caller <> SELF -> c_lstok (w_cfg w) = TIssued -> c_active (w_cfg w) = true ->
    0 < a -> 0 < minted a c -> (r = 0 \/ MIN_EGLD <= pend c + r) ->
    did w (OTx caller a [] Delegate)
      (commit (delegate_pool a c)
        (emit (EvAdd a caller (delegate_pool a c) (w_epoch w))
          (emit (XLs caller (minted a c)) (ls_paid caller (minted a c) (recv a w))))) SOk
| d_undelegate caller x w3 :
    let c := w_pool w in let e := redeemed x c in
    let i := fst (split_of (pend c) e) in let r := snd (split_of (pend c) e) in
    caller <> SELF -> c_lstok (w_cfg w) = TIssued -> c_active (w_cfg w) = true ->
    0 < x -> x <= supply c -> 0 < e -> e <= reserve c -> x <= lbal w caller -> i <= w_egld w ->
    (r = 0 \/ MIN_EGLD <= pfu c + r) ->
    ust_maybe caller r (egld_paid caller i
      (set_ls (<[SELF := lbal w SELF]> (<[caller := lbal w caller - x]> (w_ls w))) w)) w3 ->
    did w (OTx caller 0 [Pay TokLs x] UnDelegate)
      (commit (undelegate_pool x c) (emit (EvRemove e caller (undelegate_pool x c) (w_epoch w)) w3)) SOk
| d_withdraw caller a pays U' :
    let c := w_pool w in
    let s := N.min (amounts pays) (withdrawn c) in
    let c' := set_withdrawn (withdrawn c - amounts pays) c in
    caller <> SELF -> (a = 0 \/ pays = []) ->
    c_lstok (w_cfg w) = TIssued -> c_active (w_cfg w) = true -> c_usttok (w_cfg w) = TIssued ->
    Forall (matured w) pays -> (pays = [] \/ amounts (removelast pays) < withdrawn c) ->
    s <= w_egld w + a ->
    (forall n, ust_paid n pays <= ubal w n caller) ->
    wd_post caller pays (withdrawn c) (w_ust w) U' ->
    did w (OTx caller a pays Withdraw)
      (commit c' (emit (EvGeneral caller c' (w_epoch w)) (emit (XEgld caller s)
         (set_egld (w_egld w + a - s)
           (set_log (w_log w ++ back_log caller (given_back pays (withdrawn c))) (set_ust U' w)))))) SOk
| d_delegate_pending caller o a ds :
    let c := w_pool w in
    caller <> SELF -> c_lstok (w_cfg w) = TIssued -> c_active (w_cfg w) = true -> manager_b caller w = true ->
    batch_amount o (pend c) = Ok a ->
    get_delegation_contract a true (w_dl w) (w_ul w) (w_pv w) (w_cfg w) c
      = Ok (ds, set_pend (pend c + (a - damts ds)) c) ->
    map d_addr ds `sublist_of` w_dl w -> Forall (deleg_sel_ok (w_pv w)) ds ->
    (N.of_nat (length (w_dl w)) < U32 -> c_maxsel (w_cfg w) <> 0 -> N.of_nat (length ds) <= c_maxsel (w_cfg w)) ->
    damts ds <= a -> a <= pend c -> damts ds <= w_egld w ->
    let c' := set_pend (pend c - damts ds) c in
    did w (OTx caller 0 [] (DelegatePending o))
      (commit c' (emit (EvGeneral caller c' (w_epoch w)) (deleg_batch_world ds w))) SOk
| d_undelegate_pending caller o a ds :
    let c := w_pool w in
    caller <> SELF -> c_lstok (w_cfg w) = TIssued -> c_active (w_cfg w) = true -> manager_b caller w = true ->
    batch_amount o (pfu c) = Ok a ->
    get_delegation_contract a false (w_dl w) (w_ul w) (w_pv w) (w_cfg w) c
      = Ok (ds, set_pfu (pfu c + (a - damts ds)) c) ->
    map d_addr ds `sublist_of` w_ul w -> Forall (undel_sel_ok (w_pv w)) ds ->
    N.of_nat (length ds) <= c_maxsel (w_cfg w) ->
    damts ds <= a -> a <= pfu c ->
    let c' := set_pfu (pfu c - damts ds) c in
    did w (OTx caller 0 [] (UnDelegatePending o))
      (commit c' (emit (EvGeneral caller c' (w_epoch w)) (undel_batch_world ds w))) SOk
| d_withdraw_pending caller c :
    caller <> SELF -> c_lstok (w_cfg w) = TIssued -> c_active (w_cfg w) = true -> manager_b caller w = true ->
    is_Some (w_pv w !! c) ->
    did w (OTx caller 0 [] (WithdrawPending c)) (commit (w_pool w) (called (KWithd c) 0 w)) SOk
| d_claim_rewards caller :
    caller <> SELF -> c_lstok (w_cfg w) = TIssued -> c_active (w_cfg w) = true -> manager_b caller w = true ->
    w_dl w <> [] ->
    did w (OTx caller 0 [] ClaimRewards) (commit (w_pool w) (called (KClaim (w_dl w)) 0 w)) SOk
| d_claim_fees caller :
    let c := w_pool w in
    caller <> SELF -> c_lstok (w_cfg w) = TIssued -> 0 < fees_res c -> fees_res c <= w_egld w ->
    c_acc (w_cfg w) <> SELF ->
    did w (OTx caller 0 [] (ClaimFees true))
      (commit (set_fees_res 0 c) (emit (XDeposit (c_acc (w_cfg w)) (fees_res c))
         (set_egld (w_egld w - fees_res c) w))) SOk
| d_whitelist caller payment c admin total cap nodes apy :
    caller <> SELF -> N.of_nat (length (w_dl w)) <= c_maxaddr (w_cfg w) ->
    N.of_nat (length (w_ul w)) <= c_maxaddr (w_cfg w) ->
    manager_b caller w = true -> w_pv w !! c = None -> (total <= cap \/ cap = 0) ->
    MIN_EGLD <= payment ->
    did w (OTx caller payment [] (Whitelist c admin total cap nodes apy))
      (emit (XCall (KWhite c payment caller)) (set_calls (w_calls w ++ [KWhite c payment caller])
        (set_pv (<[c := new_prov admin total cap nodes apy]> (w_pv w)) w))) SOk
| d_change_admin caller c admin p :
    caller <> SELF -> manager_b caller w = true -> w_pv w !! c = Some p ->
    did w (OTx caller 0 [] (ChangeAdmin c admin)) (set_pv (<[c := set_p_admin admin p]> (w_pv w)) w) SOk
| d_change_params caller c total cap nodes apy elig p :
    caller <> SELF -> w_pv w !! c = Some p -> (p_admin p = caller \/ manager_b caller w = true) ->
    (total <= cap \/ cap = 0) ->
    did w (OTx caller 0 [] (ChangeParams c total cap nodes apy elig))
      (set_pv (<[c := with_params total cap nodes apy elig p]> (w_pv w)) w) SOk
| d_register_ls caller payment :
    caller <> SELF -> caller = w_owner w -> c_lstok (w_cfg w) = TNotSet ->
    did w (OTx caller payment [] RegisterLsToken)
      (emit (XCall (KIssue true caller payment)) (set_calls (w_calls w ++ [KIssue true caller payment])
        (set_cfg (set_c_lstok TPending (w_cfg w)) w))) SOk
| d_register_ust caller payment :
    caller <> SELF -> caller = w_owner w -> c_usttok (w_cfg w) = TNotSet ->
    did w (OTx caller payment [] RegisterUnstakeToken)
      (emit (XCall (KIssue false caller payment)) (set_calls (w_calls w ++ [KIssue false caller payment])
        (set_cfg (set_c_usttok TPending (w_cfg w)) w))) SOk
| d_owner_cfg caller ep f :
    caller <> SELF -> caller = w_owner w ->
    match ep with
    | SetStateActive => f = set_c_active true
    | SetStateInactive => f = set_c_active false
    | SetAccumulator a => f = set_c_acc a
    | SetFees x => f = set_c_fees x
    | SetMinimumRounds r => f = set_c_minr r /\ r < U64
    | SetMaxAddresses n => f = set_c_maxaddr n /\ 1 <= n < U32
    | SetMaxSelected n => f = set_c_maxsel n /\ 1 <= n
    | SetUnbondPeriod p => f = set_c_unbond p /\ p < U64
    | AddManagers l => f = (fun g => set_c_mgrs (add_all l (c_mgrs g)) g)
    | RemoveManager m => f = (fun g => set_c_mgrs (swap_remove m (c_mgrs g)) g)
    | SetMigrationSc a => f = set_c_migr (Some a) /\ is_smart_contract a = true
    | _ => False
    end ->
    did w (OTx caller 0 [] ep) (set_cfg (f (w_cfg w)) w) SOk
| d_scoring caller s :
    caller <> SELF -> manager_b caller w = true ->
    add64 (add64 (k_stake_w s) (k_apy_w s)) (k_nodes_w s) = 100 ->
    did w (OTx caller 0 [] (SetScoringConfig s)) (set_cfg (set_c_score (Some s) (w_cfg w)) w) SOk
| d_migrate caller a orig :
    let c := w_pool w in
    caller <> SELF -> c_lstok (w_cfg w) = TIssued -> c_migr (w_cfg w) = Some caller -> caller <> 0 ->
    is_smart_contract caller = true -> 0 < minted a c ->
    did w (OTx caller 0 [] (Migrate a orig))
      (commit (pool_plus a c) (emit (XLs caller (minted a c)) (emit (EvAdd a orig (pool_plus a c) (w_epoch w))
         (ls_paid caller (minted a c) w)))) SOk
| d_migrate_pending caller a :
    let c := w_pool w in
    caller <> SELF -> c_lstok (w_cfg w) = TIssued -> c_migr (w_cfg w) = Some caller -> caller <> 0 ->
    is_smart_contract caller = true ->
    did w (OTx caller a [] MigratePending)
      (commit (set_pend (pend c + a) c) (emit (EvGeneral caller (set_pend (pend c + a) c) (w_epoch w)) (recv a w))) SOk
| d_add_rewards caller a :
    let c := w_pool w in
    caller <> SELF -> c_lstok (w_cfg w) = TIssued ->
    did w (OTx caller a [] AddRewards)
      (commit (rewarded a c) (emit (EvGeneral caller (rewarded a c) (w_epoch w)) (recv a w))) SOk
(* asynchronous calls *)
| d_exec i k r out w1 :
    nth_error (w_calls w) i = Some k -> exec_call k out w = Some (r, w1) ->
    did w (OExec i out) (set_res (w_res w1 ++ [(k, r)]) (set_calls (drop_nth i (w_calls w1)) w1)) SOk
| d_cb_fail i k r e :
    nth_error (w_res w) i = Some (k, r) ->
    callback k r (recv (attached k r) (set_res (drop_nth i (w_res w)) w)) = Er e ->
    did w (OCb i) (recv (attached k r) (set_res (drop_nth i (w_res w)) w)) (SCbFail e)
| d_cb_undel i c a r p :
    nth_error (w_res w) i = Some (KUndel c a, r) ->
    c_lstok (w_cfg w) = TIssued -> w_pv w !! c = Some p -> a <= p_pun p ->
    is_done r = true -> a <= p_staked p ->
    let k1 := set_pfb (pfb (w_pool w) + a) (w_pool w) in
    did w (OCb i) (commit k1 (emit (EvGeneral c k1 (w_epoch w)) (set_pv (<[c := p_undelegated a p]> (w_pv w))
       (set_res (drop_nth i (w_res w)) w)))) SOk
| d_cb_undel_failed i c a r p :
    nth_error (w_res w) i = Some (KUndel c a, r) ->
    c_lstok (w_cfg w) = TIssued -> w_pv w !! c = Some p -> a <= p_pun p ->
    is_done r = false ->
    let k1 := set_pfu (pfu (w_pool w) + a) (w_pool w) in
    did w (OCb i) (commit k1 (emit (EvGeneral c k1 (w_epoch w)) (set_pv (<[c := p_undel_failed a p]> (w_pv w))
       (set_res (drop_nth i (w_res w)) w)))) SOk
| d_cb_deleg i c a r p :
    nth_error (w_res w) i = Some (KDeleg c a, r) ->
    c_lstok (w_cfg w) = TIssued -> w_pv w !! c = Some p -> a <= p_pst p ->
    is_done r = true ->
    did w (OCb i) (set_pv (<[c := p_delegated a p]> (w_pv w)) (set_res (drop_nth i (w_res w)) w)) SOk
| d_cb_deleg_failed i c a r p :
    nth_error (w_res w) i = Some (KDeleg c a, r) ->
    c_lstok (w_cfg w) = TIssued -> w_pv w !! c = Some p -> a <= p_pst p ->
    is_done r = false ->
    let k1 := set_pend (pend (w_pool w) + a) (w_pool w) in
    did w (OCb i) (commit k1 (emit (EvGeneral c k1 (w_epoch w)) (set_pv (<[c := p_deleg_failed a p]> (w_pv w))
       (recv a (set_res (drop_nth i (w_res w)) w))))) SOk
| d_cb_withd_empty i c r :
    nth_error (w_res w) i = Some (KWithd c, r) -> attached (KWithd c) r = 0 ->
    did w (OCb i) (set_res (drop_nth i (w_res w)) w) SOk
| d_cb_withd i c v p :
    nth_error (w_res w) i = Some (KWithd c, RDone v) -> 0 < v ->
    c_lstok (w_cfg w) = TIssued -> w_pv w !! c = Some p -> v <= p_unstaked p -> v <= pfb (w_pool w) ->
    let k1 := got_back v (w_pool w) in
    did w (OCb i) (commit k1 (emit (EvWithdrawPending v c c k1 (w_epoch w))
       (set_pv (<[c := set_p_unstaked (p_unstaked p - v) p]> (w_pv w))
         (recv v (set_res (drop_nth i (w_res w)) w))))) SOk
| d_cb_claim_empty i l r :
    nth_error (w_res w) i = Some (KClaim l, r) -> attached (KClaim l) r = 0 ->
    did w (OCb i) (set_res (drop_nth i (w_res w)) w) SOk
| d_cb_claim i l v :
    nth_error (w_res w) i = Some (KClaim l, RDone v) -> 0 < v ->
    c_lstok (w_cfg w) = TIssued -> fee_of v w <= v ->
    did w (OCb i) (commit (reward_pool v w) (emit (EvClaim v DELEGATION_MANAGER (reward_pool v w) (w_epoch w))
       (emit (EvRevenue (fee_of v w) (w_epoch w)) (recv v (set_res (drop_nth i (w_res w)) w))))) SOk
| d_cb_white i c a caller r p :
    nth_error (w_res w) i = Some (KWhite c a caller, r) ->
    c_lstok (w_cfg w) = TIssued -> is_done r = true -> w_pv w !! c = Some p -> 0 < minted a (w_pool w) ->
    did w (OCb i) (white_ok_world c a caller p (set_res (drop_nth i (w_res w)) w)) SOk
| d_cb_white_failed i c a caller r :
    nth_error (w_res w) i = Some (KWhite c a caller, r) ->
    c_lstok (w_cfg w) = TIssued -> is_done r = false ->
    did w (OCb i) (emit (XEgld caller a) (set_pv (delete c (w_pv w)) (set_res (drop_nth i (w_res w)) w))) SOk
| d_cb_issue i ls who a r :
    nth_error (w_res w) i = Some (KIssue ls who a, r) -> is_done r = true ->
    did w (OCb i) (set_cfg (issue_cfg ls true (w_cfg w)) (set_res (drop_nth i (w_res w)) w)) SOk
| d_cb_issue_failed i ls who a r :
    nth_error (w_res w) i = Some (KIssue ls who a, r) -> is_done r = false ->
    did w (OCb i) (set_log (if 0 <? a then [XEgld who a] else [])
       (set_cfg (issue_cfg ls false (w_cfg w)) (set_res (drop_nth i (w_res w)) w))) SOk
(* environment *)
| d_epoch d : w_epoch w + d < U64 -> did w (OEpoch d) (set_epoch (w_epoch w + d) w) SOk
| d_move_ls from to a :
    from <> SELF -> a <= lbal w from ->
    did w (OMoveLs from to a) (set_ls (credit (<[from := lbal w from - a]> (w_ls w)) to a) w) SOk
| d_move_ust n from to a :
    from <> SELF -> a <= ubal w n from ->
    did w (OMoveUst n from to a)
      (set_ust (credit (<[(n, from) := ubal w n from - a]> (w_ust w)) (n, to) a) w) SOk
| d_donate a : did w (ODonate a) (recv a w) SOk
| d_owner a : did w (OOwner a) (set_owner a w) SOk
| d_provider c x u : did w (OProvider c x u) (set_live (<[c := (x, u)]> (w_live w)) w) SOk
| d_abort i k r :
    nth_error (w_res w) i = Some (k, r) ->
    did w (OAbort i) (recv (attached k r) (set_res (drop_nth i (w_res w)) w)) (SCbFail EAborted).

(** * [did] covers every step *)
Lemma recv_0 w : recv 0 w = w.
Proof. unfold recv. destruct w; unfold set_egld; cbn. by rewrite N.add_0_r. Qed.

Lemma called_recv k a w : called k a (recv a w) = emit (XCall k) (set_calls (w_calls w ++ [k]) w).
Proof.
  unfold called, recv, emit. destruct w; unfold set_egld, set_calls, set_log; cbn.
  by rewrite N.add_sub.
Qed.

Lemma refund_white e a m v :
  commit (w_pool (recv a v)) (emit e (set_egld (w_egld (recv a v) - a) (set_pv m (recv a v))))
  = emit e (set_pv m v).
Proof.
  replace (w_egld (recv a v) - a) with (w_egld v) by (cbn; lia). destruct v; reflexivity.
Qed.

Lemma refund_issue who a g v :
  w_log v = [] ->
  egld_paid who a (set_cfg g (recv a v)) = set_log (if 0 <? a then [XEgld who a] else []) (set_cfg g v).
Proof.
  intros Hl. unfold egld_paid. destruct (0 <? a) eqn:B.
  - replace (w_egld (set_cfg g (recv a v)) - a) with (w_egld v) by (cbn; lia).
    unfold emit. replace (w_log _) with (@nil eff) by done. destruct v; reflexivity.
  - assert (a = 0) as -> by lia. rewrite recv_0. destruct v; cbn in Hl; subst; reflexivity.
Qed.

Lemma exec_tx_inv caller a pays ep w w' :
  exec_tx caller a pays ep w = Ok w' ->
  caller <> SELF /\ (a = 0 \/ pays = []) /\ args_ok ep = true
  /\ match payable_of ep with PayNone => a = 0 /\ pays = [] | PayEgld => pays = [] | PayAny => True end
  /\ exists w1, pay_in caller pays w = Ok w1 /\ run_endpoint ep caller a pays (recv a w1) = Ok w'.
Proof.
  unfold exec_tx. intros H. apply rbind_ok in H as [[] [E1 H]]. rstep E1.
  apply rbind_ok in H as [w1 [E2 H]]. apply rbind_ok in H as [[] [E3 H]].
  apply rbind_ok in H as [[] [E4 H]]. rstep E4. unfold payment_ok in E3.
  apply rbind_ok in E3 as [[] [E5 E3]]. rstep E5.
  assert (Hn : (N.of_nat (length pays) =? 0) = true -> pays = []) by (destruct pays; [done|cbn; lia]).
  split_and!; try done; try lia.
  - destruct (a =? 0) eqn:B; [left; lia|right; auto].
  - destruct (payable_of ep); [rstep E3|rstep E3; auto|done].
    apply andb_true_iff in E3 as [? ?]. split; [lia|auto].
  - exists w1. done.
Qed.

Lemma wd_combine caller pays pot L L' U U1 U' :
  caller <> SELF -> Forall (fun p => exists n, y_tok p = TokUst n) pays ->
  paid_post caller pays L L' U U1 -> wl_post caller pays pot U1 U' -> wd_post caller pays pot U U'.
Proof.
  intros Hc HF (_ & _ & _ & _ & H5 & H6 & H7 & H8) (K1 & K2 & K3 & K4).
  assert (Ha : sumN (map any_ust pays) = amounts pays).
  { unfold amounts. clear -HF. induction HF as [|p l [n Hn] _ IH]; [done|]. cbn.
    unfold any_ust at 1. rewrite Hn, IH. done. }
  unfold wd_post. split_and!.
  - intros n. specialize (H5 n). specialize (K1 n). lia.
  - intros n. specialize (H6 n). rewrite K2. lia.
  - intros n a Ha1 Ha2. rewrite K3, H7 by done. done.
  - rewrite K4. lia.
Qed.

Lemma no_ls_paid (pays : list pay) :
  Forall (fun p => exists n, y_tok p = TokUst n) pays -> sumN (map any_ls pays) = 0.
Proof. induction 1 as [|p l [n Hn] _ IH]; [done|]. cbn. unfold any_ls at 1. rewrite Hn. lia. Qed.

Lemma pay_in_ust caller pays w w1 :
  Forall (fun p => exists n, y_tok p = TokUst n) pays -> pay_in caller pays w = Ok w1 ->
  exists U, w1 = set_ust U w.
Proof.
  intros HF. revert w. induction HF as [|[t a] l [n Hn] _ IH]; intros w H.
  - cbn in H. injection H as <-. exists (w_ust w). by destruct w.
  - cbn in Hn. subst t. cbn [pay_in y_tok y_amt] in H. apply rbind_ok in H as [w2 [E H]]. rstep E.
    apply IH in H as [U ->]. exists U. done.
Qed.

Lemma step_did w o : did (set_log [] w) o (fst (step w o)) (snd (step w o)).
Proof.
  unfold step. set (v := set_log [] w). assert (Hlog : w_log v = []) by done.
  clearbody v. clear w. rename v into w.
  destruct o as [caller a pays ep|i out|i|d|from to a|n from to a|a|a|c x u|i].
  - destruct (exec_tx caller a pays ep w) as [w'|e] eqn:E; [|by apply d_none].
    cbn [fst snd]. apply exec_tx_inv in E as (Hc & Hap & Hargs & Hpay & w1 & Hin & E).
    destruct ep; cbn [payable_of] in Hpay; cbn [run_endpoint] in E;
      try (lazymatch type of Hpay with _ /\ _ => destruct Hpay as [-> ->] end; cbn in Hin; injection Hin as <-; rewrite recv_0 in E);
      try (subst pays; cbn in Hin; injection Hin as <-).
    + apply delegate_inv in E as (H1 & H2 & H3 & H4 & H5 & ->).
      exact (d_delegate w caller a Hc H1 H2 H3 H4 H5).
    + pose proof E as E0.
      apply un_delegate_inv in E as (x & -> & H1 & H2 & (H3 & H4) & (H5 & H6) & H7 & H8 & H9 & w3 & H10 & ->).
      destruct Hap as [->|Hap]; [|discriminate Hap]. rewrite recv_0 in *.
      cbn [pay_in y_tok y_amt] in Hin. apply rbind_ok in Hin as [w2 [Hin0 Hin]]. rstep Hin0. rstep Hin.
      apply (d_undelegate w caller x w3); try done.
      unfold egld_paid in *. cbn in H10.
      assert (HL : <[SELF:=lbal (set_ls (credit (<[caller:=amt_at (w_ls w) caller - x]> (w_ls w)) SELF x) w) SELF - x]>
        (credit (<[caller:=amt_at (w_ls w) caller - x]> (w_ls w)) SELF x)
        = <[SELF := lbal w SELF]> (<[caller := lbal w caller - x]> (w_ls w))).
      { unfold credit, lbal. cbn. rewrite insert_insert, !amt_insert, decide_True by done.
        rewrite decide_False by done. f_equal. lia. }
      rewrite HL in H10. exact H10.
    + apply withdraw_inv in E as (H1 & H2 & H3 & H4 & H5 & H6 & U' & H7 & ->); [|done].
      assert (HF : Forall (fun p => exists n, y_tok p = TokUst n) pays).
      { eapply Forall_impl; [|exact H4]. intros p (n & ? & ? & ? & _). by exists n. }
      destruct (pay_in_ust _ _ _ _ HF Hin) as [U ->].
      apply pay_in_inv in Hin as (L' & U1 & Hp & Heq); [|done].
      assert (U1 = U) as -> by (apply (f_equal w_ust) in Heq; by cbn in Heq).
      pose proof (wd_combine _ _ _ _ _ _ _ _ Hc HF Hp H7) as HW.
      refine (d_withdraw w caller a pays U' Hc Hap H1 H2 H3 H4 H5 H6 _ HW).
      intros n. destruct Hp as (_ & _ & _ & _ & _ & H & _). specialize (H n). unfold ubal. lia.
    + apply delegate_pending_inv in E as (H1 & H2 & H3 & a & ds & H4 & H5 & H6 & H7 & H8 & [H9 H10] & H11 & ->).
      by apply (d_delegate_pending w caller amount a ds).
    + apply un_delegate_pending_inv in E as (H1 & H2 & H3 & a & ds & H4 & H5 & H6 & H7 & H8 & [H9 H10] & ->).
      by apply (d_undelegate_pending w caller amount a ds).
    + apply withdraw_pending_inv in E as (H1 & H2 & H3 & H4 & ->). by apply d_withdraw_pending.
    + apply claim_rewards_inv in E as (H1 & H2 & H3 & H4 & ->). by apply d_claim_rewards.
    + apply claim_fees_inv in E as (H1 & -> & [H3 H4] & H5 & ->). by apply d_claim_fees.
    + apply whitelist_inv in E as (H1 & H2 & H3 & H4 & H5 & [H6 H7] & ->).
      match goal with |- did _ _ (called ?k a (set_pv ?m (recv a w))) _ =>
        change (called k a (set_pv m (recv a w))) with (called k a (recv a (set_pv m w))) end.
      rewrite called_recv. exact (d_whitelist w caller a c admin total cap nodes apy Hc H1 H2 H3 H4 H5 H6).
    + apply change_admin_inv in E as (H1 & p & H2 & ->). by apply d_change_admin.
    + apply change_params_inv in E as (p & H1 & H2 & H3 & ->). by apply d_change_params.
    + apply register_ls_token_inv in E as (H1 & H2 & H3 & ->).
      match goal with |- did _ _ (called ?k a (set_cfg ?m (recv a w))) _ =>
        change (called k a (set_cfg m (recv a w))) with (called k a (recv a (set_cfg m w))) end.
      rewrite called_recv. exact (d_register_ls w caller a Hc H1 H2).
    + apply register_unstake_token_inv in E as (H1 & H2 & H3 & ->).
      match goal with |- did _ _ (called ?k a (set_cfg ?m (recv a w))) _ =>
        change (called k a (set_cfg m (recv a w))) with (called k a (recv a (set_cfg m w))) end.
      rewrite called_recv. exact (d_register_ust w caller a Hc H1 H2).
    + apply owner_set_inv in E as [H1 ->]. by apply d_owner_cfg.
    + apply owner_set_inv in E as [H1 ->]. by apply d_owner_cfg.
    + apply owner_set_inv in E as [H1 ->]. by apply d_owner_cfg.
    + apply owner_set_inv in E as [H1 ->]. by apply d_owner_cfg.
    + apply owner_set_inv in E as [H1 ->]. cbn in Hargs. apply d_owner_cfg; try done. split; [done|lia].
    + apply set_max_addresses_inv in E as (H1 & H2 & ->). cbn in Hargs. apply d_owner_cfg; try done. split; [done|lia].
    + apply set_max_selected_inv in E as (H1 & H2 & ->). by apply d_owner_cfg.
    + apply owner_set_inv in E as [H1 ->]. cbn in Hargs. apply d_owner_cfg; try done. split; [done|lia].
    + apply owner_set_inv in E as [H1 ->]. by apply (d_owner_cfg w caller (AddManagers l) (fun g => set_c_mgrs (add_all l (c_mgrs g)) g)).
    + apply owner_set_inv in E as [H1 ->].
      match goal with |- did w (OTx _ _ _ (RemoveManager ?m)) _ _ =>
      by apply (d_owner_cfg w caller (RemoveManager m) (fun g => set_c_mgrs (swap_remove m (c_mgrs g)) g)) end.
    + apply set_scoring_config_inv in E as (H1 & H2 & ->). by apply d_scoring.
    + apply migrate_inv in E as (H1 & H2 & H3 & H4 & H5 & ->). by apply d_migrate.
    + apply migrate_pending_inv in E as (H1 & H2 & H3 & H4 & ->). exact (d_migrate_pending w caller a Hc H1 H2 H3 H4).
    + apply add_rewards_inv in E as (H1 & ->). exact (d_add_rewards w caller a Hc H1).
    + apply set_migration_sc_inv in E as (H1 & H2 & ->). by apply d_owner_cfg.
  - destruct (nth_error (w_calls w) i) as [k|] eqn:Ek; [|by apply d_none].
    destruct (exec_call k out w) as [[r w1]|] eqn:Ee; [|by apply d_none].
    cbn. by eapply d_exec.
  - destruct (nth_error (w_res w) i) as [[k r]|] eqn:Ek; [|by apply d_none].
    change (set_egld (w_egld w + attached k r) (set_res (drop_nth i (w_res w)) w))
      with (recv (attached k r) (set_res (drop_nth i (w_res w)) w)).
    destruct (callback k r _) as [w2|e] eqn:Ec; cbn [fst snd]; [|by eapply d_cb_fail].
    destruct k as [c a|c a|c|l|c a caller|ls who a]; cbn [callback] in Ec.
    + apply add_cb_inv in Ec as (H1 & p & H2 & H3 & H4). destruct r as [|v]; cbn in H4; subst w2.
      * cbn [attached]. by apply (d_cb_deleg_failed w i c a RFail p).
      * cbn [attached]. rewrite recv_0.
        change (commit (w_pool (set_res (drop_nth i (w_res w)) w)) (set_pv (<[c := p_delegated a p]> (w_pv w)) (set_res (drop_nth i (w_res w)) w)))
        with (set_pv (<[c := p_delegated a p]> (w_pv w)) (set_res (drop_nth i (w_res w)) w)).
        by apply (d_cb_deleg w i c a (RDone v) p).
    + apply remove_cb_inv in Ec as (H1 & p & H2 & H3 & H4). destruct r as [|v]; cbn in H4.
      * subst w2. cbn [attached]. rewrite recv_0. by apply (d_cb_undel_failed w i c a RFail p).
      * destruct H4 as [H4 ->]. cbn [attached]. rewrite recv_0. by apply (d_cb_undel w i c a (RDone v) p).
    + apply withdraw_cb_inv in Ec as [[H1 ->]|(H1 & H2 & p & H3 & H4 & H5 & ->)].
      * rewrite H1, recv_0. by eapply d_cb_withd_empty.
      * destruct r as [|v]; cbn [attached] in *; [lia|]. by apply (d_cb_withd w i c v p).
    + apply claim_cb_inv in Ec as [[H1 ->]|(v & -> & H1 & H2 & H3 & ->)].
      * assert (attached (KClaim l) r = 0) as H0 by (destruct H1 as [-> | ->]; done).
        rewrite H0, recv_0. by eapply d_cb_claim_empty.
      * exact (d_cb_claim w i l v Ek H1 H2 H3).
    + apply white_cb_inv in Ec as (H1 & H2). destruct r as [|v]; cbn in H2.
      * destruct H2 as [H2 ->]. cbn [attached].
        replace (commit _ _) with (emit (XEgld caller a) (set_pv (delete c (w_pv w)) (set_res (drop_nth i (w_res w)) w))).
        -- by apply (d_cb_white_failed w i c a caller RFail).
        -- symmetry. apply (refund_white (XEgld caller a) a (delete c (w_pv w)) (set_res (drop_nth i (w_res w)) w)).
      * destruct H2 as (p & H2 & H3 & ->). cbn [attached]. rewrite recv_0.
        exact (d_cb_white w i c a caller (RDone v) p Ek H1 eq_refl H2 H3).
    + apply issue_cb_inv in Ec. destruct r as [|v]; cbn in Ec.
      * destruct Ec as [H1 ->]. cbn [attached].
        replace (egld_paid _ _ _) with (set_log (if 0 <? a then [XEgld who a] else [])
          (set_cfg (issue_cfg ls false (w_cfg w)) (set_res (drop_nth i (w_res w)) w))).
        -- by apply (d_cb_issue_failed w i ls who a RFail).
        -- symmetry. apply (refund_issue who a (issue_cfg ls false (w_cfg w)) (set_res (drop_nth i (w_res w)) w) Hlog).
      * subst w2. cbn [attached]. rewrite recv_0. by eapply d_cb_issue.
  - destruct (w_epoch w + d <? U64) eqn:B; [|by apply d_none]. cbn. apply d_epoch. lia.
  - destruct (from =? SELF) eqn:B; [by apply d_none|].
    destruct (debit (w_ls w) from a) as [m|] eqn:E; [|by apply d_none]. rstep E. cbn.
    apply d_move_ls; [lia|done].
  - destruct (from =? SELF) eqn:B; [by apply d_none|].
    destruct (debit (w_ust w) (n, from) a) as [m|] eqn:E; [|by apply d_none]. rstep E. cbn.
    apply d_move_ust; [lia|done].
  - cbn. apply d_donate.
  - cbn. apply d_owner.
  - cbn. apply d_provider.
  - destruct (nth_error (w_res w) i) as [[k r]|] eqn:Ek; [|by apply d_none]. by apply d_abort.
Qed.
