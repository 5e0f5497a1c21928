(** L_Worth.v — deposits, redemptions, migrations and whitelistings valued by plain
    arithmetic on reserve and supply. *)
From Verif Require Export L_Access.

Lemma ls_worth_minted w a : ls_worth w a = minted a (w_pool w).
Proof. unfold ls_worth, minted, virtual_reserve, ls_supply. destruct (reserve (w_pool w)); done. Qed.

Lemma deposit_quote_iff w a m :
  view_egld_value a w = Ok m <-> c_lstok (w_cfg w) = TIssued /\ m = ls_worth w a /\ 0 < m.
Proof.
  rewrite ls_worth_minted. split.
  - intros H. apply view_egld_value_inv in H as (?&?&?). done.
  - intros (H1 & -> & H2). by apply view_egld_value_ok.
Qed.

Lemma redeem_quote_iff w x e :
  view_ls_value x w = Ok e <-> c_lstok (w_cfg w) = TIssued /\ x <= ls_supply w /\ e = egld_worth w x /\ 0 < e.
Proof.
  split.
  - intros H. apply view_ls_value_inv in H as (?&?&?&?). done.
  - intros (H1 & H2 & -> & H3). by apply view_ls_value_ok.
Qed.

Lemma held_le_supply w u : Reachable w -> ls_balance u w <= ls_supply w.
Proof.
  intros Hr. pose proof (a_supply w (acct w Hr)) as HS. unfold ls_balance, ls_supply. rewrite <- HS. unfold total_ls, amt_at.
  pose proof (gat_le (fun _ v => v) (w_ls w) u) as H. unfold gat in H. destruct (w_ls w !! u); cbn in *; [done|lia].
Qed.

Lemma delegate_worth w u a :
  c_active (w_cfg w) = true -> c_lstok (w_cfg w) = TIssued -> u <> SELF -> ONE_EGLD <= a -> 0 < ls_worth w a ->
  let m := ls_worth w a in
  let o := OTx u a [] Delegate in let w' := fst (step w o) in
  snd (step w o) = SOk
  /\ (forall v, ls_balance v w' = ls_balance v w + (if v =? u then m else 0))
  /\ ls_supply w' = ls_supply w + m /\ virtual_reserve w' = virtual_reserve w + a
  /\ contract_egld w' = contract_egld w + a
  /\ (exists i r, i + r = a /\ pending_egld w' = pending_egld w + r
      /\ total_withdrawn w' = total_withdrawn w + i /\ unstake_queue w' + i = unstake_queue w)
  /\ fees_reserve w' = fees_reserve w /\ unbonding w' = unbonding w
  /\ rest_unchanged w w' /\ ust_unchanged w w' /\ (forall v, egld_sent v w' = 0).
Proof. intros H1 H2 H3 H4 H5. apply delegate_full; try done. by apply deposit_quote_iff. Qed.

Lemma undelegate_worth w u x :
  Reachable w -> c_active (w_cfg w) = true -> c_lstok (w_cfg w) = TIssued -> c_usttok (w_cfg w) = TIssued ->
  u <> SELF -> x <= ls_balance u w -> ONE_EGLD <= egld_worth w x ->
  let e := egld_worth w x in
  let o := OTx u 0 [Pay TokLs x] UnDelegate in let w' := fst (step w o) in
  snd (step w o) = SOk
  /\ paid_out u w w' = e
  /\ ls_balance u w' + x = ls_balance u w /\ (forall v, v <> u -> ls_balance v w' = ls_balance v w)
  /\ (forall n v, v <> SELF -> v <> u -> ust_of n v w' = ust_of n v w)
  /\ (forall v, v <> u -> egld_sent v w' = 0)
  /\ ls_supply w' + x = ls_supply w /\ virtual_reserve w' + e = virtual_reserve w
  /\ contract_egld w' + egld_sent u w' = contract_egld w
  /\ pending_egld w' + egld_sent u w' = pending_egld w
  /\ unstake_queue w' + egld_sent u w' = unstake_queue w + e
  /\ total_withdrawn w' = total_withdrawn w /\ fees_reserve w' = fees_reserve w /\ unbonding w' = unbonding w
  /\ rest_unchanged w w'.
Proof.
  intros Hr H1 H2 H3 H4 H5 H6. apply undelegate_full; try done. apply redeem_quote_iff. split_and!; try done.
  - pose proof (held_le_supply w u Hr). lia.
  - assert (0 < ONE_EGLD) by done. lia.
Qed.

Lemma instant_worth w u x :
  Reachable w -> c_active (w_cfg w) = true -> c_lstok (w_cfg w) = TIssued -> u <> SELF -> x <= ls_balance u w ->
  let e := egld_worth w x in
  0 < e -> pending_egld w = e \/ e + ONE_EGLD <= pending_egld w ->
  let o := OTx u 0 [Pay TokLs x] UnDelegate in let w' := fst (step w o) in
  snd (step w o) = SOk /\ egld_sent u w' = e /\ pending_egld w' + e = pending_egld w
  /\ unstake_queue w' = unstake_queue w /\ ust_unchanged w w' /\ ls_balance u w' + x = ls_balance u w.
Proof.
  intros Hr H1 H2 H3 H4 e H5 H6. apply instant_full; try done. apply redeem_quote_iff. split_and!; try done.
  pose proof (held_le_supply w u Hr). lia.
Qed.

(** whoever holds everything can leave with everything *)
Lemma full_exit_works w u :
  Reachable w -> c_active (w_cfg w) = true -> c_lstok (w_cfg w) = TIssued -> c_usttok (w_cfg w) = TIssued ->
  u <> SELF -> ls_balance u w = ls_supply w -> 0 < ls_supply w -> ONE_EGLD <= virtual_reserve w ->
  let o := OTx u 0 [Pay TokLs (ls_supply w)] UnDelegate in let w' := fst (step w o) in
  snd (step w o) = SOk /\ paid_out u w w' = virtual_reserve w /\ virtual_reserve w' = 0 /\ ls_supply w' = 0.
Proof.
  intros Hr H1 H2 H3 H4 H5 H6 H7. cbn zeta.
  assert (He : egld_worth w (ls_supply w) = virtual_reserve w) by (unfold egld_worth; rewrite N.mul_comm, N.div_mul; lia).
  destruct (undelegate_worth w u (ls_supply w)) as (K1 & K2 & _ & _ & _ & _ & K3 & K4 & _); try done; [lia|by rewrite He|].
  rewrite He in K2, K4. split; [exact K1|]. split; [exact K2|]. split; lia.
Qed.

Lemma migrate_worth w u eg pays a orig :
  snd (step w (OTx u eg pays (Migrate a orig))) = SOk ->
  let w' := fst (step w (OTx u eg pays (Migrate a orig))) in let m := ls_worth w a in
  c_migr (w_cfg w) = Some u /\ is_smart_contract u = true /\ 0 < m
  /\ ls_supply w' = ls_supply w + m /\ virtual_reserve w' = virtual_reserve w + a
  /\ (forall x, ls_balance x w' = ls_balance x w + (if x =? u then m else 0))
  /\ pending_egld w' = pending_egld w /\ unstake_queue w' = unstake_queue w /\ unbonding w' = unbonding w
  /\ total_withdrawn w' = total_withdrawn w /\ fees_reserve w' = fees_reserve w
  /\ contract_egld w' = contract_egld w /\ rest_unchanged w w' /\ ust_unchanged w w'.
Proof.
  intros H. apply migrate_done in H as (H1 & H2 & m & Hm & H). apply deposit_quote_iff in Hm as (_ & -> & Hm).
  split; [exact H1|]. split; [exact H2|]. split; [exact Hm|]. exact H.
Qed.

Lemma white_worth w i c a u v :
  Reachable w -> nth_error (w_res w) i = Some (KWhite c a u, RDone v) -> c_lstok (w_cfg w) = TIssued -> 0 < ls_worth w a ->
  let w' := fst (step w (OCb i)) in let m := ls_worth w a in
  snd (step w (OCb i)) = SOk
  /\ c ∉ w_dl w /\ w_dl w' = w_dl w ++ [c] /\ w_ul w' = w_ul w ++ [c]
  /\ (exists p, w_pv w !! c = Some p /\ p_staked p = 0 /\ w_pv w' = <[c := set_p_staked a p]> (w_pv w))
  /\ ls_supply w' = ls_supply w + m /\ virtual_reserve w' = virtual_reserve w + a
  /\ (forall x, ls_balance x w' = ls_balance x w + (if x =? u then m else 0))
  /\ pending_egld w' = pending_egld w /\ unstake_queue w' = unstake_queue w /\ unbonding w' = unbonding w
  /\ total_withdrawn w' = total_withdrawn w /\ fees_reserve w' = fees_reserve w
  /\ contract_egld w' = contract_egld w
  /\ w_calls w' = w_calls w /\ w_res w' = drop_nth i (w_res w)
  /\ ust_unchanged w w' /\ env_unchanged w w'.
Proof. intros Hr K Hl Hm. apply (cb_white_ok w i c a u v (ls_worth w a) Hr K). by apply deposit_quote_iff. Qed.
