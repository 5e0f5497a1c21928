(** L_Wd.v — withdraw: the exact condition of success and the tokens kept. *)
From Verif Require Export Spec3 L_User.
From Verif Require Import L_Batch L_Base.

Lemma withdraw_loop_ok2 caller pays c w s :
  caller <> SELF ->
  Forall (matured w) pays -> (forall n, ust_paid n pays <= ubal w n SELF) ->
  (pays = [] \/ amounts (removelast pays) < withdrawn c) ->
  exists x, withdraw_loop caller pays c w s = Ok x.
Proof.
  intros Hc. revert c w s. induction pays as [|[t a] r IH]; intros c w s HF Hb Ha; [cbn; eauto|].
  pose proof (Forall_inv HF) as (n & e & u & Ht & Hp & Hat & Hu). apply Forall_inv_tail in HF. cbn in Ht, Hp. subst t.
  assert (Hn : a <= amt_at (w_ust w) (n, SELF)).
  { specialize (Hb n). rewrite ust_paid_cons, N.eqb_refl in Hb. unfold ubal in Hb. lia. }
  cbn [withdraw_loop y_tok y_amt]. destruct (0 <? a) eqn:B; [|lia]. cbn [require rbind].
  rewrite (token_attributes_ok n w e u) by (done || (unfold ubal; lia)). cbn [rbind].
  destruct (u <=? w_epoch w) eqn:Bu; [|lia]. cbn [require rbind].
  destruct Ha as [Ha|Ha]; [discriminate Ha|].
  destruct (a <=? withdrawn c) eqn:B1.
  - unfold burn_unstake_tokens, nft_burn. rewrite debit_le by done. cbn [rbind].
    unfold sub. rewrite B1. cbn [rbind]. apply IH.
    + exact HF.
    + intros k. specialize (Hb k). rewrite ust_paid_cons in Hb. unfold ubal in *. cbn. rewrite amt_insert. destruct (N.eqb_spec n k) as [->|Hk].
      * rewrite decide_True by done. lia.
      * rewrite decide_False by congruence. lia.
    + destruct r as [|q r]; [by left|]. right. cbn [withdrawn set_withdrawn].
      unfold amounts in *. cbn [removelast map sumN y_amt] in Ha. cbn [removelast]. lia.
  - destruct r as [|q r].
    + unfold amounts in Ha. cbn in Ha.
      destruct (0 <? withdrawn c) eqn:B2; [|lia].
      unfold burn_unstake_tokens, nft_burn. rewrite debit_le by lia. cbn [rbind].
      unfold sub. replace (withdrawn c <=? a) with true by lia. cbn [rbind]. unfold send_ust. cbn [w_ust set_ust].
      rewrite debit_le by (rewrite amt_insert, decide_True by done; lia). cbn [rbind withdraw_loop]. eauto.
    + unfold amounts in Ha. cbn [removelast map sumN y_amt] in Ha. lia.
Qed.

Lemma withdraw_ok2 caller pays w :
  caller <> SELF -> c_lstok (w_cfg w) = TIssued -> c_active (w_cfg w) = true -> c_usttok (w_cfg w) = TIssued ->
  Forall (matured w) pays -> (forall n, ust_paid n pays <= ubal w n SELF) ->
  (pays = [] \/ amounts (removelast pays) < withdrawn (w_pool w)) -> withdrawn (w_pool w) <= w_egld w ->
  exists w', withdraw caller pays w = Ok w'.
Proof.
  intros Hc H1 H2 H3 HF Hb Ha He.
  unfold withdraw, cache_new, ls_token_id, is_state_active, unstake_token_id. rewrite H1, H2, H3. cbn [require rbind].
  destruct (withdraw_loop_ok2 caller pays (w_pool w) w 0 Hc HF Hb Ha) as [[[c1 w1] s] E]. rewrite E. cbn [rbind].
  apply withdraw_loop_inv in E as (_ & -> & -> & _ & U' & _ & ->); [|done].
  unfold send_egld, take_egld.
  match goal with |- context [?x <=? ?y] => destruct (x <=? y) eqn:B end; [cbn; eauto|]. cbn in B. lia.
Qed.

Lemma withdraw_iff w u pays :
  Reachable w ->
  snd (step w (OTx u 0 pays Withdraw)) = SOk
  <-> u <> SELF /\ c_lstok (w_cfg w) = TIssued /\ c_active (w_cfg w) = true /\ c_usttok (w_cfg w) = TIssued
    /\ Forall (fun q => 0 < y_amt q /\ exists n r, y_tok q = TokUst n /\ release_epoch n w = Some r /\ r <= w_epoch w) pays
    /\ (forall n, pay_of_nonce n pays <= ust_of n u w)
    /\ (pays = [] \/ pay_total (removelast pays) < total_withdrawn w).
Proof.
  intros Hr. split.
  - intros H. apply withdraw_done in H as (U' & Hu & Hep & H1 & H2 & H3 & HF & Hl & Hs & Hb & HW & Hw).
    split_and!; try done.
    eapply Forall_impl; [|exact HF]. intros q (n & e & r & Q1 & Q2 & Q3 & Q4). split; [done|]. exists n, r. split_and!; try done.
    unfold release_epoch. rewrite Q3. done.
  - intros (Hu & H1 & H2 & H3 & HF0 & Hb & Ha). pose proof (acct w Hr) as [HA _ _].
    assert (HF : Forall (matured w) pays).
    { eapply Forall_impl; [|exact HF0]. intros q (Q0 & n & r & Q1 & Q2 & Q3). unfold release_epoch in Q2.
      destruct (w_attr w !! n) as [[e r']|] eqn:Ea; [|discriminate Q2]. cbn in Q2. injection Q2 as ->.
      exists n, e, r. split_and!; done. }
    clear HF0.
    assert (HT : Forall (fun p => exists n, y_tok p = TokUst n) pays).
    { eapply Forall_impl; [|exact HF]. intros p (n & ? & ? & ? & _). by exists n. }
    destruct (pay_in_ok u pays (set_log [] w) Hu HT Hb) as [w1 E].
    unfold step, exec_tx. destruct (N.eqb_spec u SELF) as [|_]; [done|]. cbn [negb require rbind]. rewrite E. cbn [rbind].
    unfold payment_ok. cbn [payable_of N.eqb orb require rbind run_endpoint args_ok].
    destruct (pay_in_frame _ _ _ _ Hu E) as (L & U & -> & Hn & _ & _ & _).
    set (v := set_ust U (set_ls L (set_log [] w))) in *.
    change (set_egld (w_egld v + 0) v) with (recv 0 v). rewrite recv_0.
    destruct (withdraw_ok2 u pays v) as [w' E']; try done; [|by rewrite E'].
    cbn. lia.
Qed.

(** what is kept: all of the nonces not handed in, and of the last one handed in what the pot did not cover *)
Lemma withdraw_tokens w u eg pays :
  snd (step w (OTx u eg pays Withdraw)) = SOk ->
  let w' := fst (step w (OTx u eg pays Withdraw)) in
  (forall n, pay_of_nonce n pays <= ust_of n u w)
  /\ forall n, ust_of n u w' + pay_of_nonce n pays
       = ust_of n u w + match list.last pays with
                        | Some (Pay (TokUst k) _) => if k =? n then pay_total pays - total_withdrawn w else 0
                        | _ => 0
                        end.
Proof.
  intros H. apply withdraw_done in H as (U' & Hu & Hep & H1 & H2 & H3 & HF & Hl & Hs & Hb & HW & Hw). cbv zeta in *.
  split; [exact Hb|]. rewrite Hw. clear Hw. destruct HW as (W1 & W2 & W3 & W4). intros n. specialize (W2 n).
  unfold ust_of. cbn [w_ust commit emit set_pool set_egld set_log set_ust]. change (pay_of_nonce n pays) with (ust_paid n pays).
  cbn. rewrite W2. f_equal. unfold given_back, total_withdrawn. change (pay_total pays) with (amounts pays).
  destruct (amounts pays <=? withdrawn (w_pool w)) eqn:B.
  - cbn. replace (amounts pays - withdrawn (w_pool w)) with 0 by lia. destruct (list.last pays) as [[[|k|] a]|]; try done. by destruct (k =? n).
  - destruct (list.last pays) as [[[|k|] a]|]; done.
Qed.

(** * Everything matured covered by the pot *)
Lemma gsum_sel_le {K} `{Countable K} (s t : K -> bool) (m m' : gmap K N) :
  (forall k, s k = true -> amt_at m k <= (if t k then amt_at m' k else 0)) ->
  gsum (fun k v => if s k then v else 0) m <= gsum (fun k v => if t k then v else 0) m'.
Proof.
  revert m'. induction m as [|k v m Hk IH] using map_ind; intros m' Hz.
  - rewrite gsum_empty. lia.
  - rewrite gsum_insert_new by done. rewrite (gsum_delete_any _ m' k). specialize (IH (delete k m')).
    assert (gsum (fun k v => if s k then v else 0) m <= gsum (fun k v => if t k then v else 0) (delete k m')) as H1.
    { apply IH. intros k' Hs. pose proof (Hz k' Hs) as H1. rewrite amt_insert in H1. destruct (decide (k = k')) as [->|Hn].
      - unfold amt_at. rewrite Hk. cbn. destruct (t k'); lia.
      - unfold amt_at in *. rewrite lookup_delete_ne by done. done. }
    pose proof (Hz k) as H2. rewrite amt_insert, decide_True in H2 by done. unfold gat. unfold amt_at in H2.
    destruct (s k).
    + specialize (H2 eq_refl). destruct (t k), (m' !! k); cbn in *; lia.
    + lia.
Qed.

Definition rel (at_ : gmap N (N * N)) (n : N) : option N := match at_ !! n with Some (_, r) => Some r | None => None end.
Definition selm (at_ : gmap N (N * N)) (ep : N) (k : N * N) : bool :=
  negb (snd k =? SELF) && match rel at_ (fst k) with Some r => r <=? ep | None => false end.
Definition mat (at_ : gmap N (N * N)) (ep : N) (U : gmap (N * N) N) : N :=
  gsum (fun k v => if selm at_ ep k then v else 0) U.

Lemma mat_eq w : matured_tokens w = mat (w_attr w) (w_epoch w) (w_ust w).
Proof. reflexivity. Qed.

Lemma mat_split (at_ : gmap N (N * N)) (ep : N) (U : gmap (N * N) N) :
  users_ust U = mat at_ ep U + gsum (fun k v => if negb (snd k =? SELF) && negb (selm at_ ep k) then v else 0) U.
Proof.
  unfold users_ust, mat. induction U as [|k v m Hk IH] using map_ind; [by rewrite !gsum_empty|].
  rewrite !gsum_insert_new by done. rewrite IH.
  assert (selm at_ ep k = true -> (snd k =? SELF) = false) as Hi.
  { unfold selm. by destruct (snd k =? SELF). }
  destruct (selm at_ ep k), (snd k =? SELF); cbn [negb andb]; lia.
Qed.

Lemma issue_keeps_mat caller a u w n w' :
  UstInv w -> caller <> SELF -> w_epoch w < u -> ust_issue caller a u w n w' ->
  mat (w_attr w') (w_epoch w') (w_ust w') <= mat (w_attr w) (w_epoch w) (w_ust w).
Proof.
  intros HU Hc Hu D.
  pose proof (fun k => issue_mine _ _ _ _ _ _ k Hc D) as HM.
  pose proof (fun k v Hv Hvc => issue_others _ _ _ _ _ _ k v Hv Hvc D) as HO.
  destruct (issue_attr _ _ _ _ _ _ HU D) as [e He].
  assert (Hep : w_epoch w' = w_epoch w) by (by destruct D).
  assert (Hat : forall k x, w_attr w !! k = Some x -> w_attr w' !! k = Some x).
  { intros k x Hk. pose proof (u_attr _ _ _ _ _ HU k) as Ha. assert (1 <= k <= w_last w) as Hb by (apply Ha; eauto).
    destruct D; cbn; try done; (rewrite lookup_insert_ne; [done|lia]). }
  rewrite Hep. unfold mat. apply gsum_sel_le. intros [k v] Hs. unfold selm in Hs. cbn in Hs.
  apply andb_true_iff in Hs as [Hs1 Hs2]. assert (v <> SELF) by (intros ->; by rewrite N.eqb_refl in Hs1).
  assert (k <> n). { intros ->. unfold rel in Hs2. rewrite He in Hs2. lia. }
  assert (amt_at (w_ust w') (k, v) = amt_at (w_ust w) (k, v)) as ->.
  { destruct (decide (v = caller)) as [->|]; [|by apply HO]. rewrite HM. destruct (N.eqb_spec k n); [done|]. lia. }
  destruct (N.eq_0_gt_0_cases (amt_at (w_ust w) (k, v))) as [->|Hp]; [destruct selm; lia|].
  apply (u_bal _ _ _ _ _ HU) in Hp. apply (u_attr _ _ _ _ _ HU) in Hp as [[x1 x2] Hx].
  unfold selm, rel in *. cbn. rewrite Hs1, Hx. cbn. rewrite (Hat _ _ Hx) in Hs2. rewrite Hs2. cbn. lia.
Qed.

Lemma unripe_unpaid w n pays :
  Forall (matured w) pays -> (forall e r, w_attr w !! n = Some (e, r) -> w_epoch w < r) -> ust_paid n pays = 0.
Proof.
  intros HF Hn. induction HF as [|[t a] l (k & e & u & Ht & Hp & Ha & Hu) _ IH]; [done|].
  cbn in Ht. subst t. rewrite ust_paid_cons, IH. destruct (N.eqb_spec k n) as [->|]; [|done].
  specialize (Hn _ _ Ha). lia.
Qed.

Lemma unripe_not_back w n pays pot :
  Forall (matured w) pays -> (forall e r, w_attr w !! n = Some (e, r) -> w_epoch w < r) -> back_of (given_back pays pot) n = 0.
Proof.
  intros HF Hn. unfold given_back. destruct (amounts pays <=? pot); [done|].
  destruct (list.last pays) as [[[|k|] a]|] eqn:El; try done. cbn.
  apply last_Some in El as [l' ->]. rewrite Forall_app in HF. destruct HF as [_ HF].
  apply Forall_inv in HF as (m & e & u & Ht & Hp & Ha & Hu). cbn in Ht. injection Ht as <-.
  destruct (N.eqb_spec k n) as [->|]; [|done]. specialize (Hn _ _ Ha). lia.
Qed.

Lemma covered_did w o w' s :
  UstInv w -> did w o w' s -> same_epoch o -> waits w ->
  matured_tokens w' + total_withdrawn w <= matured_tokens w + total_withdrawn w'.
Proof.
  intros HU D He Hw. rewrite !mat_eq. unfold total_withdrawn. destruct D; subst_pools; try (cbn; lia).
  - (* UnDelegate *)
    destruct H9 as [_|n w2 Hp _ D]; rewrite egld_paid_eq in *; [cbn; lia|].
    assert (w_pool w2 = w_pool w) as Hpool by (by destruct D).
    apply issue_keeps_mat in D; [cbn in *; lia|exact HU|done|].
    cbn. destruct Hw as [Hw1 Hw2]. unfold add64. change U64 with (2 ^ 64). rewrite N.mod_small by done. lia.
  - (* Withdraw *)
    destruct H8 as (W1 & W2 & W3 & W4). pose proof (back_total_eq w pays (withdrawn (w_pool w)) H4) as Hbt.
    cbn. rewrite (mat_split (w_attr w) (w_epoch w) U'), (mat_split (w_attr w) (w_epoch w) (w_ust w)) in W4.
    rewrite (gsum_ext_amt _ U' (w_ust w)) in W4.
    + cbn in W4. lia.
    + intros [n v] Hk. apply andb_true_iff in Hk as [Hk1 Hk2]. cbn in Hk1.
      assert (v <> SELF) by (intros ->; by rewrite N.eqb_refl in Hk1).
      destruct (decide (v = caller)) as [->|Hv]; [|by apply W3].
      assert (Hn : forall e r, w_attr w !! n = Some (e, r) -> w_epoch w < r).
      { intros e r Hr. unfold selm, rel in Hk2. cbn in Hk2. rewrite Hk1, Hr in Hk2. cbn in Hk2. lia. }
      specialize (W2 n). rewrite (unripe_unpaid w n pays H4 Hn), (unripe_not_back w n pays _ H4 Hn) in W2. lia.
  - (* a call executed *)
    match goal with H : exec_call _ _ _ = Some _ |- _ => apply exec_call_frame in H as [l ->] end. cbn. lia.
  - (* epoch *)
    cbn in He. subst. cbn. rewrite N.add_0_r. lia.
  - (* tokens moved *)
    cbn. unfold mat, credit. rewrite amt_insert.
    pose proof (gsum_ledger (selm (w_attr w) (w_epoch w)) (w_ust w) (n, from) (ubal w n from - a)) as G1.
    pose proof (gsum_ledger (selm (w_attr w) (w_epoch w)) (<[(n, from) := ubal w n from - a]> (w_ust w)) (n, to)
      (amt_at (<[(n, from) := ubal w n from - a]> (w_ust w)) (n, to) + a)) as G2.
    rewrite amt_insert in G2. unfold ubal in *.
    assert (selm (w_attr w) (w_epoch w) (n, to) = true -> selm (w_attr w) (w_epoch w) (n, from) = true).
    { unfold selm. cbn. destruct (N.eqb_spec from SELF); [done|]. cbn. intros K. apply andb_true_iff in K as [_ K]. exact K. }
    destruct (selm (w_attr w) (w_epoch w) (n, to)), (selm (w_attr w) (w_epoch w) (n, from));
      try (discriminate (H1 eq_refl)); case_decide; simplify_eq; lia.
Qed.

Lemma covered_step w o :
  Reachable w -> same_epoch o -> waits w ->
  matured_tokens (fst (step w o)) + total_withdrawn w <= matured_tokens w + total_withdrawn (fst (step w o)).
Proof.
  intros Hr He Hw. exact (covered_did (set_log [] w) o _ _ (ust w Hr) (step_did w o) He Hw).
Qed.

Lemma pays_le_matured w u pays :
  u <> SELF -> Forall (matured w) pays -> (forall n, ust_paid n pays <= ust_of n u w) -> amounts pays <= matured_tokens w.
Proof.
  intros Hu HF Hb. rewrite mat_eq. unfold ust_of in Hb. remember (w_ust w) as m eqn:Em. clear Em. revert m Hb.
  induction HF as [|[t a] l (n & e & r & Ht & Hp & Ha & Hr) _ IH]; intros m Hb; [unfold amounts; cbn; lia|].
  cbn in Ht. subst t. pose proof (Hb n) as H. rewrite ust_paid_cons, N.eqb_refl in H.
  pose proof (gsum_ledger (selm (w_attr w) (w_epoch w)) m (n, u) (amt_at m (n, u) - a)) as G.
  assert (Hs : selm (w_attr w) (w_epoch w) (n, u) = true).
  { unfold selm, rel. cbn. rewrite Ha. destruct (N.eqb_spec u SELF); [done|]. cbn. lia. }
  rewrite Hs in G. fold (mat (w_attr w) (w_epoch w) m) in G.
  fold (mat (w_attr w) (w_epoch w) (<[(n, u):=amt_at m (n, u) - a]> m)) in G.
  specialize (IH (<[(n, u) := amt_at m (n, u) - a]> m)).
  unfold amounts in *. cbn [map y_amt sumN]. cbn in Hp.
  assert (sumN (map y_amt l) <= mat (w_attr w) (w_epoch w) (<[(n, u) := amt_at m (n, u) - a]> m)); [|lia].
  apply IH. intros k. specialize (Hb k). rewrite ust_paid_cons in Hb. rewrite amt_insert.
  destruct (N.eqb_spec n k) as [->|Hk]; case_decide; simplify_eq; lia.
Qed.

Lemma covered_withdraw w u pays :
  Reachable w -> matured_tokens w <= total_withdrawn w ->
  u <> SELF -> c_lstok (w_cfg w) = TIssued -> c_active (w_cfg w) = true -> c_usttok (w_cfg w) = TIssued ->
  Forall (fun p => 0 < y_amt p /\ exists n r, y_tok p = TokUst n /\ release_epoch n w = Some r /\ r <= w_epoch w) pays ->
  (forall n, pay_of_nonce n pays <= ust_of n u w) ->
  snd (step w (OTx u 0 pays Withdraw)) = SOk
  /\ egld_sent u (fst (step w (OTx u 0 pays Withdraw))) = pay_total pays.
Proof.
  intros Hr Hc Hu H4 H5 H6 HF Hb.
  assert (HM : Forall (matured w) pays).
  { eapply Forall_impl; [|exact HF]. intros [t a] (Ha & n & r & Ht & Hn & Hle). unfold release_epoch in Hn.
    destruct (w_attr w !! n) as [[e r']|] eqn:E; [|done]. injection Hn as ->. exists n, e, r. done. }
  pose proof (pays_le_matured w u pays Hu HM Hb) as Hs. unfold total_withdrawn in Hc.
  assert (HS : snd (step w (OTx u 0 pays Withdraw)) = SOk) by (apply withdraw_available; try done; lia).
  split; [done|]. apply withdraw_effects in HS as [-> _]. unfold total_withdrawn.
  change (pay_total pays) with (amounts pays). lia.
Qed.

Lemma covered_history w os :
  Reachable w -> matured_tokens w <= total_withdrawn w -> always waits w os -> Forall same_epoch os ->
  matured_tokens (run w os) <= total_withdrawn (run w os).
Proof.
  revert w. induction os as [|o os IH]; intros w Hr Hc Ha HF; [done|].
  cbn [run always] in *. destruct Ha as [Hw Ha]. inversion HF as [|? ? Ho HF']; subst.
  apply IH; try done.
  - by constructor.
  - pose proof (covered_step w o Hr Ho Hw). lia.
Qed.

Lemma covered_served w os u pays :
  Reachable w -> matured_tokens w <= total_withdrawn w -> always waits w os -> Forall same_epoch os ->
  let v := run w os in
  u <> SELF -> c_lstok (w_cfg v) = TIssued -> c_active (w_cfg v) = true -> c_usttok (w_cfg v) = TIssued ->
  Forall (fun p => 0 < y_amt p /\ exists n r, y_tok p = TokUst n /\ release_epoch n v = Some r /\ r <= w_epoch v) pays ->
  (forall n, pay_of_nonce n pays <= ust_of n u v) ->
  snd (step v (OTx u 0 pays Withdraw)) = SOk
  /\ egld_sent u (fst (step v (OTx u 0 pays Withdraw))) = pay_total pays.
Proof.
  intros Hr Hc Ha HF v. apply covered_withdraw.
  - clear Hc Ha HF. subst v. revert w Hr. induction os as [|o os IH]; intros w Hr; [exact Hr|]. cbn [run]. apply IH. by constructor.
  - by apply covered_history.
Qed.
