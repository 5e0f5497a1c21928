(** L_User.v — user endpoints: exact effects and availability. *)
From Verif Require Export L_Pool.

(** * Matching against the opposite queue *)
Lemma split_max q a i' r' :
  i' + r' = a -> i' <= q -> (q - i' = 0 \/ MIN_EGLD <= q - i') -> (r' = 0 \/ MIN_EGLD <= r') ->
  i' <= fst (split_of q a).
Proof.
  intros H1 H2 H3 H4. pose proof MIN_pos. unfold split_of. bsplit; cbn; try lia.
Qed.

Lemma delegate_split w u a pays :
  snd (step w (OTx u a pays Delegate)) = SOk ->
  let w' := fst (step w (OTx u a pays Delegate)) in
  exists i r, i + r = a
  /\ total_withdrawn w' = total_withdrawn w + i /\ pending_egld w' = pending_egld w + r
  /\ unstake_queue w' + i = unstake_queue w
  /\ (i = 0 \/ unstake_queue w' = 0 \/ MIN_EGLD <= unstake_queue w')
  /\ (MIN_EGLD <= a -> r = 0 \/ MIN_EGLD <= r)
  /\ forall i' r', i' + r' = a -> i' <= unstake_queue w ->
      (unstake_queue w - i' = 0 \/ MIN_EGLD <= unstake_queue w - i') -> (r' = 0 \/ MIN_EGLD <= r') -> i' <= i.
Proof.
  intros H. apply delegate_effects in H as (_ & H2 & _). cbv zeta in *.
  unfold total_withdrawn, pending_egld, unstake_queue. rewrite H2, delegate_pool_eq. cbn [withdrawn pend pfu].
  pose proof (split_facts (pfu (w_pool w)) a) as HS. cbv zeta in HS.
  exists (fst (split_of (pfu (w_pool w)) a)), (snd (split_of (pfu (w_pool w)) a)).
  split_and!; try lia. intros i' r'. apply split_max.
Qed.

Lemma undelegate_split w u eg x :
  snd (step w (OTx u eg [Pay TokLs x] UnDelegate)) = SOk ->
  let w' := fst (step w (OTx u eg [Pay TokLs x] UnDelegate)) in
  let e := paid_out u w w' in
  exists i r, i + r = e
  /\ egld_sent u w' = i /\ ust_balance u w' = ust_balance u w + r
  /\ contract_egld w' + i = contract_egld w
  /\ unstake_queue w' = unstake_queue w + r /\ pending_egld w' + i = pending_egld w
  /\ (i = 0 \/ pending_egld w' = 0 \/ MIN_EGLD <= pending_egld w')
  /\ (MIN_EGLD <= e -> r = 0 \/ MIN_EGLD <= r)
  /\ forall i' r', i' + r' = e -> i' <= pending_egld w ->
      (pending_egld w - i' = 0 \/ MIN_EGLD <= pending_egld w - i') -> (r' = 0 \/ MIN_EGLD <= r') -> i' <= i.
Proof.
  intros H. cbv zeta. rewrite (payout _ _ _ _ H).
  pose proof (undelegate_done _ _ _ _ H) as (x0 & w3 & [= <-] & _ & _ & _ & _ & _ & _ & _ & _ & _ & Hi & _).
  apply undelegate_effects in H as (x' & [= <-] & _ & Hu & Hx & Hs & He & Hv & Hb & H1 & H2 & H3 & H4 & H5 & _).
  unfold contract_egld, pending_egld, unstake_queue. rewrite H3, H4, H5, (H2 u Hu), N.eqb_refl. cbn [undelegate_pool pend pfu].
  pose proof (split_facts (pend (w_pool w)) (redeemed x (w_pool w))) as HS. cbv zeta in HS.
  exists (fst (split_of (pend (w_pool w)) (redeemed x (w_pool w)))), (snd (split_of (pend (w_pool w)) (redeemed x (w_pool w)))).
  split_and!; try lia. intros i' r'. apply split_max.
Qed.

(** * Availability of delegate *)
Lemma delegate_available w u a m :
  c_active (w_cfg w) = true -> u <> SELF -> MIN_EGLD <= a -> view_egld_value a w = Ok m ->
  snd (step w (OTx u a [] Delegate)) = SOk.
Proof.
  intros H1 H2 H3 H4. apply view_egld_value_inv in H4 as (H4 & H5 & ->).
  unfold step. cbn [exec_tx]. unfold exec_tx.
  destruct (N.eqb_spec u SELF) as [|_]; [done|]. cbn [negb require rbind pay_in payment_ok payable_of length args_ok].
  unfold payment_ok. cbn [payable_of length N.of_nat N.eqb]. rewrite orb_true_r. cbn [require rbind run_endpoint args_ok].
  destruct (delegate_ok u a (recv a (set_log [] w)) H4 H1 H3 H5) as [w' E].
  change (set_egld (w_egld (set_log [] w) + a) (set_log [] w)) with (recv a (set_log [] w)). by rewrite E.
Qed.

(** * Availability of unDelegate *)
Lemma exec_undelegate w u x :
  u <> SELF -> x <= ls_balance u w ->
  (exists w', un_delegate u [Pay TokLs x] (set_ls (credit (<[u := amt_at (w_ls w) u - x]> (w_ls w)) SELF x) (set_log [] w)) = Ok w') ->
  snd (step w (OTx u 0 [Pay TokLs x] UnDelegate)) = SOk.
Proof.
  intros H1 H2 [w' E]. unfold step, exec_tx.
  destruct (N.eqb_spec u SELF) as [|_]; [done|]. cbn [negb require rbind pay_in y_tok y_amt w_ls set_log].
  rewrite debit_le by done. cbn [rbind]. unfold payment_ok. cbn [payable_of length N.of_nat N.eqb orb require rbind run_endpoint args_ok].
  set (v := set_ls _ (set_log [] w)) in *.
  change (set_egld (w_egld v + 0) v) with (recv 0 v). rewrite recv_0, E. done.
Qed.

Lemma undelegate_available w u x e :
  Reachable w -> c_active (w_cfg w) = true -> u <> SELF -> x <= ls_balance u w -> view_ls_value x w = Ok e ->
  (pending_egld w = e \/ e + MIN_EGLD <= pending_egld w
   \/ (c_usttok (w_cfg w) = TIssued /\ MIN_EGLD <= e)) ->
  snd (step w (OTx u 0 [Pay TokLs x] UnDelegate)) = SOk.
Proof.
  intros Hr Ha Hu Hx Hv Hc. pose proof (acct w Hr) as [HA _ _]. pose proof (ust w Hr) as HU.
  apply view_ls_value_inv in Hv as (Hl & Hs & He & ->).
  apply exec_undelegate; [done|done|].
  apply un_delegate_ok; try done.
  - destruct (N.eqb_spec x 0) as [->|]; [|lia]. revert He. unfold redeemed. rewrite N.mul_0_l.
    destruct (supply (w_pool w)); cbn; lia.
  - unfold lbal. cbn. rewrite amt_credit, amt_insert. rewrite decide_False by done. rewrite decide_True by done. lia.
  - cbn. lia.
  - cbn [w_pool set_ls set_log]. pose proof (split_facts (pend (w_pool w)) (redeemed x (w_pool w))) as HS. cbv zeta in HS.
    pose proof MIN_pos.
    unfold pending_egld in *. destruct Hc as [Hc|[Hc|[Hc1 Hc2]]].
    + left. unfold split_of. bsplit; cbn; lia.
    + left. unfold split_of. bsplit; cbn; lia.
    + destruct HS as (_ & _ & _ & HS). destruct (HS Hc2); [left; done|]. right. split_and!; try done. cbn. lia.
Qed.

(** Nothing else changes *)
Lemma issue_others caller a u w n w' k v :
  v <> SELF -> v <> caller -> ust_issue caller a u w n w' -> amt_at (w_ust w') (k, v) = amt_at (w_ust w) (k, v).
Proof.
  intros Hv Hc D. destruct D; cbn; rewrite amt_credit, !amt_insert; repeat case_decide; simplify_eq; try done; lia.
Qed.

Lemma issue_mine caller a u w n w' k :
  caller <> SELF -> ust_issue caller a u w n w' ->
  amt_at (w_ust w') (k, caller) = amt_at (w_ust w) (k, caller) + (if k =? n then a else 0).
Proof.
  intros Hc D. destruct D; cbn; rewrite amt_credit, !amt_insert;
    match goal with |- context [k =? ?y] => destruct (N.eqb_spec k y) as [->|Hk] end;
    repeat case_decide; simplify_eq; try done; try lia.
Qed.

Lemma maybe_others caller r w w' k v :
  v <> SELF -> v <> caller -> ust_maybe caller r w w' -> amt_at (w_ust w') (k, v) = amt_at (w_ust w) (k, v).
Proof. intros Hv Hc [_|n w2 _ _ D]; [done|]. by eapply issue_others. Qed.

Lemma maybe_mine caller r w w' k :
  caller <> SELF -> ust_maybe caller r w w' -> amt_at (w_ust w) (k, caller) <= amt_at (w_ust w') (k, caller).
Proof.
  intros Hc [_|n w2 _ _ D]; [lia|]. rewrite (issue_mine _ _ _ _ _ _ k Hc D). lia.
Qed.

Lemma undelegate_others w u eg pays k v :
  snd (step w (OTx u eg pays UnDelegate)) = SOk ->
  v <> SELF -> v <> u ->
  amt_at (w_ust (fst (step w (OTx u eg pays UnDelegate)))) (k, v) = amt_at (w_ust w) (k, v).
Proof.
  intros H Hv Hu. apply undelegate_done in H as (x & w3 & _ & _ & _ & _ & _ & _ & _ & _ & _ & _ & _ & _ & Hm & Hw).
  rewrite Hw. cbn. rewrite (maybe_others _ _ _ _ k v Hv Hu Hm). rewrite egld_paid_eq. done.
Qed.

(** * The release epoch *)
Lemma attr_issue caller a u w n w' k x :
  UstInv w -> ust_issue caller a u w n w' -> w_attr w !! k = Some x -> w_attr w' !! k = Some x.
Proof.
  intros [_ _ HA _ _] D Hk. pose proof (proj1 (HA k) ltac:(by eexists)) as Hk1.
  destruct D; cbn; try done; rewrite lookup_insert_ne by lia; done.
Qed.

Lemma attr_did w o w' s k x : UstInv w -> did w o w' s -> w_attr w !! k = Some x -> w_attr w' !! k = Some x.
Proof.
  intros HU D Hk. destruct D; try exact Hk.
  - match goal with H : ust_maybe _ _ _ _ |- _ => destruct H as [_|n w2 _ _ D] end.
    + rewrite egld_paid_eq. exact Hk.
    + eapply (attr_issue _ _ _ _ _ _ k x) in D; [exact D|by apply ustinv_paid|rewrite egld_paid_eq; exact Hk].
  - match goal with H : exec_call _ _ _ = _ |- _ => apply exec_call_frame in H as [l ->] end. exact Hk.
Qed.

Lemma attr_step w o k x : Reachable w -> w_attr w !! k = Some x -> w_attr (fst (step w o)) !! k = Some x.
Proof. intros Hr Hk. exact (attr_did (set_log [] w) o _ _ k x (ust w Hr) (step_did w o) Hk). Qed.

Lemma attr_run w os k x : Reachable w -> w_attr w !! k = Some x -> w_attr (run w os) !! k = Some x.
Proof.
  revert w. induction os as [|o os IH]; intros w Hr Hk; [done|]. cbn [run].
  apply IH; [by apply reach_step|by apply attr_step].
Qed.

Lemma release_fixed w os n r : Reachable w -> release_epoch n w = Some r -> release_epoch n (run w os) = Some r.
Proof.
  intros Hr. unfold release_epoch. destruct (w_attr w !! n) as [[e r']|] eqn:E; [|done]. intros [= ->].
  by rewrite (attr_run w os n _ Hr E).
Qed.

Lemma issue_attr caller a u w n w' :
  UstInv w -> ust_issue caller a u w n w' -> exists e, w_attr w' !! n = Some (e, u).
Proof.
  intros HU D. destruct D; cbn.
  - destruct (u_map _ _ _ _ _ HU u n H) as (_ & He & _). exact He.
  - rewrite lookup_insert. eauto.
  - rewrite lookup_insert. eauto.
  - rewrite lookup_insert. eauto.
Qed.

Lemma release_of_new w u eg pays :
  Reachable w -> snd (step w (OTx u eg pays UnDelegate)) = SOk ->
  let w' := fst (step w (OTx u eg pays UnDelegate)) in
  ust_unchanged w w' \/
  exists n r, 0 < r /\ release_epoch n w' = Some ((w_epoch w + c_unbond (w_cfg w)) mod U64)
    /\ ust_of n u w' = ust_of n u w + r
    /\ forall k, k <> n -> ust_of k u w' = ust_of k u w.
Proof.
  intros Hr H. apply undelegate_done in H as (x & w3 & _ & _ & Hu & _ & _ & _ & _ & _ & _ & _ & _ & _ & Hm & Hw).
  cbv zeta in *. rewrite Hw. destruct Hm as [_|n w2 Hp _ D].
  - left. rewrite egld_paid_eq. done.
  - right. exists n, (snd (split_of (pend (w_pool w)) (redeemed x (w_pool w)))).
    pose proof (fun k => issue_mine _ _ _ _ _ _ k Hu D) as HM.
    apply issue_attr in D as [e He]; [|apply ustinv_paid; exact (ust w Hr)].
    unfold release_epoch, ust_of. cbn [w_attr w_ust commit set_pool emit set_log].
    rewrite egld_paid_eq in HM, He. cbn in HM, He. split_and!; try done.
    + rewrite He. reflexivity.
    + rewrite HM, N.eqb_refl. done.
    + intros k Hk. rewrite HM. destruct (N.eqb_spec k n); [done|]. lia.
Qed.

(** * withdraw *)
Lemma gsum_zero {K} `{Countable K} (s : K -> bool) (m : gmap K N) :
  (forall k, s k = true -> amt_at m k = 0) -> gsum (fun k v => if s k then v else 0) m = 0.
Proof.
  induction m as [|k v m Hk IH] using map_ind; intros Hz; [apply gsum_empty|].
  rewrite gsum_insert_new by done. rewrite IH.
  - pose proof (Hz k) as H1. rewrite amt_insert, decide_True in H1 by done. destruct (s k); [rewrite H1; done|done].
  - intros k' Hs. pose proof (Hz k' Hs) as H1. rewrite amt_insert in H1. case_decide; [subst; unfold amt_at; by rewrite Hk|done].
Qed.

Lemma gsum_ext_amt {K} `{Countable K} (s : K -> bool) (m m' : gmap K N) :
  (forall k, s k = true -> amt_at m k = amt_at m' k) ->
  gsum (fun k v => if s k then v else 0) m = gsum (fun k v => if s k then v else 0) m'.
Proof.
  revert m'. induction m as [|k v m Hk IH] using map_ind; intros m' Hz.
  - rewrite gsum_empty. symmetry. apply gsum_zero. intros k Hs. rewrite <- Hz by done. unfold amt_at. by rewrite lookup_empty.
  - rewrite gsum_insert_new by done. rewrite (gsum_delete_any _ m' k). rewrite (IH (delete k m')).
    + f_equal. unfold gat. pose proof (Hz k) as H1. rewrite amt_insert, decide_True in H1 by done.
      unfold amt_at in H1. destruct (m' !! k); cbn in H1; destruct (s k); try done; by rewrite H1.
    + intros k' Hs. pose proof (Hz k' Hs) as H1. rewrite amt_insert in H1.
      unfold amt_at in *. destruct (decide (k = k')) as [->|Hn].
      * rewrite lookup_delete, Hk. done.
      * rewrite lookup_delete_ne by done. done.
Qed.

Lemma users_split (u : N) (m : gmap (N * N) N) :
  u <> SELF -> users_ust m = ustb u m + gsum (fun k v => if negb (snd k =? SELF) && negb (snd k =? u) then v else 0) m.
Proof.
  intros Hu. unfold users_ust, ustb. induction m as [|k v m Hk IH] using map_ind; [by rewrite !gsum_empty|].
  rewrite !gsum_insert_new by done. rewrite IH.
  destruct (N.eqb_spec (snd k) SELF) as [E|E]; destruct (N.eqb_spec (snd k) u) as [E1|E1]; cbn; lia.
Qed.

Lemma withdraw_done w u eg pays :
  snd (step w (OTx u eg pays Withdraw)) = SOk ->
  let c := w_pool w in let w' := fst (step w (OTx u eg pays Withdraw)) in
  let s := N.min (amounts pays) (withdrawn c) in
  let c' := set_withdrawn (withdrawn c - amounts pays) c in
  exists U', u <> SELF /\ (eg = 0 \/ pays = []) /\
    c_lstok (w_cfg w) = TIssued /\ c_active (w_cfg w) = true /\ c_usttok (w_cfg w) = TIssued /\
    Forall (matured w) pays /\ (pays = [] \/ amounts (removelast pays) < withdrawn c) /\
    s <= w_egld w + eg /\
    (forall n, ust_paid n pays <= ubal w n u) /\
    wd_post u pays (withdrawn c) (w_ust w) U' /\
    w' = (commit c' (emit (EvGeneral u c' (w_epoch w)) (emit (XEgld u s)
         (set_egld (w_egld w + eg - s)
           (set_log ([] ++ back_log u (given_back pays (withdrawn c))) (set_ust U' (set_log [] w))))))).
Proof.
  intros H. cbv zeta. did_of w (OTx u eg pays Withdraw) H. exists U'. split_and!; try done.
Qed.

Lemma back_log_egld u v g : sumN (map (egld_to v) (back_log u g)) = 0.
Proof. destruct g as [[n a]|]; done. Qed.

Lemma withdraw_effects w u eg pays :
  snd (step w (OTx u eg pays Withdraw)) = SOk ->
  let w' := fst (step w (OTx u eg pays Withdraw)) in
  let p := egld_sent u w' in
  p = N.min (pay_total pays) (total_withdrawn w)
  /\ total_withdrawn w' + p = total_withdrawn w
  /\ contract_egld w' + p = contract_egld w + eg
  /\ ust_balance u w' + p = ust_balance u w
  /\ (forall n v, v <> u -> ust_of n v w' = ust_of n v w)
  /\ (forall n, ust_of n u w' <= ust_of n u w)
  /\ w_pool w' = set_withdrawn (total_withdrawn w - p) (w_pool w)
  /\ w_ls w' = w_ls w /\ w_un w' = w_un w /\ w_attr w' = w_attr w /\ w_last w' = w_last w
  /\ rest_unchanged w w'
  /\ Forall (fun q => 0 < y_amt q /\ exists n r, y_tok q = TokUst n /\ release_epoch n w = Some r /\ r <= w_epoch w) pays
  /\ (pays = [] \/ pay_total (removelast pays) < total_withdrawn w).
Proof.
  intros H. apply withdraw_done in H as (U' & Hu & Hep & H1 & H2 & H3 & HF & Hl & Hs & Hb & HW & Hw). cbv zeta in *.
  rewrite Hw. clear Hw. destruct HW as (W1 & W2 & W3 & W4).
  assert (Hp : egld_sent u (commit (set_withdrawn (withdrawn (w_pool w) - amounts pays) (w_pool w))
     (emit (EvGeneral u (set_withdrawn (withdrawn (w_pool w) - amounts pays) (w_pool w)) (w_epoch w))
        (emit (XEgld u (N.min (amounts pays) (withdrawn (w_pool w))))
           (set_egld (w_egld w + eg - N.min (amounts pays) (withdrawn (w_pool w)))
              (set_log ([] ++ back_log u (given_back pays (withdrawn (w_pool w)))) (set_ust U' (set_log [] w)))))))
     = N.min (amounts pays) (withdrawn (w_pool w))).
  { unfold egld_sent. cbn. rewrite !map_app, !sumN_app. rewrite back_log_egld. cbn. rewrite N.eqb_refl. lia. }
  rewrite Hp. clear Hp. fold (amounts pays). pose proof (back_total_eq w pays (withdrawn (w_pool w)) HF) as Hbt.
  assert (Hmono : forall n, amt_at U' (n, u) <= amt_at (w_ust w) (n, u)).
  { intros n. specialize (W2 n). specialize (Hb n). unfold ubal in Hb.
    assert (back_of (given_back pays (withdrawn (w_pool w))) n <= ust_paid n pays); [|lia].
    unfold given_back. destruct (amounts pays <=? withdrawn (w_pool w)) eqn:B; [cbn; lia|].
    destruct (list.last pays) as [[t a]|] eqn:El; [|cbn; lia]. destruct Hl as [->|Hl]; [discriminate El|].
    apply last_Some in El as [l' ->]. rewrite removelast_last in Hl.
    assert (Ht : exists k, t = TokUst k).
    { rewrite Forall_app in HF. destruct HF as [_ HF]. apply Forall_inv in HF as (k & ? & ? & ? & _). by exists k. }
    destruct Ht as [k ->]. unfold amounts, ust_paid in *. rewrite !map_app, !sumN_app in *. cbn in *.
    destruct (k =? n); lia. }
  split_and!; try done.
  - unfold total_withdrawn. cbn. lia.
  - unfold contract_egld. cbn. lia.
  - unfold ust_balance. cbn. fold (ustb u U') (ustb u (w_ust w)).
    rewrite !(users_split u) in W4 by done.
    rewrite (gsum_ext_amt _ U' (w_ust w)) in W4.
    + unfold total_withdrawn in *. fold (amounts pays) in *. lia.
    + intros [n a] Hs'. cbn in Hs'. apply andb_true_iff in Hs' as [A1 A2]. apply W3; intros ->; by rewrite N.eqb_refl in *.
  - intros n v Hv. unfold ust_of. cbn. destruct (decide (v = SELF)) as [->|]; [by apply W1|by apply W3].
  - unfold total_withdrawn. cbn. f_equal. lia.
  - eapply Forall_impl; [|exact HF]. intros q (n & e & r & Q1 & Q2 & Q3 & Q4). split; [done|]. exists n, r. split_and!; try done.
    unfold release_epoch. rewrite Q3. done.
Qed.

Lemma pay_in_ok caller pays w :
  caller <> SELF -> Forall (fun p => exists n, y_tok p = TokUst n) pays ->
  (forall n, ust_paid n pays <= ubal w n caller) -> exists w1, pay_in caller pays w = Ok w1.
Proof.
  intros Hc HF. revert w. induction HF as [|[t a] l [n Hn] _ IH]; intros w Hb; [cbn; eauto|].
  cbn in Hn. subst t. cbn [pay_in y_tok y_amt].
  pose proof (Hb n) as H. rewrite ust_paid_cons, N.eqb_refl in H. unfold ubal in H.
  rewrite debit_le by lia. cbn [rbind]. apply IH.
  intros k. specialize (Hb k). rewrite ust_paid_cons in Hb. unfold ubal in *. cbn.
  rewrite amt_credit, amt_insert. destruct (N.eqb_spec n k) as [->|Hk]; repeat case_decide; simplify_eq; lia.
Qed.

Lemma withdraw_available w u pays :
  Reachable w -> u <> SELF -> c_lstok (w_cfg w) = TIssued -> c_active (w_cfg w) = true -> c_usttok (w_cfg w) = TIssued ->
  Forall (matured w) pays -> (forall n, ust_paid n pays <= ubal w n u) -> amounts pays <= withdrawn (w_pool w) ->
  snd (step w (OTx u 0 pays Withdraw)) = SOk.
Proof.
  intros Hr Hu H1 H2 H3 HF Hb Ha. pose proof (acct w Hr) as [HA _ _].
  assert (HT : Forall (fun p => exists n, y_tok p = TokUst n) pays).
  { eapply Forall_impl; [|exact HF]. intros p (n & ? & ? & ? & _). by exists n. }
  destruct (pay_in_ok u pays (set_log [] w) Hu HT Hb) as [w1 E].
  unfold step, exec_tx. destruct (N.eqb_spec u SELF) as [|_]; [done|]. cbn [negb require rbind]. rewrite E. cbn [rbind].
  unfold payment_ok. cbn [payable_of N.eqb orb require rbind run_endpoint args_ok].
  destruct (pay_in_frame _ _ _ _ Hu E) as (L & U & -> & Hn & _ & _ & _).
  set (v := set_ust U (set_ls L (set_log [] w))) in *.
  change (set_egld (w_egld v + 0) v) with (recv 0 v). rewrite recv_0.
  destruct (withdraw_ok u pays v) as [w' E']; try done; [|by rewrite E'].
  cbn. lia.
Qed.

(** * A drained pipeline *)
Lemma reach_history w : Reachable w -> exists w0 os, Deployed w0 /\ w = run w0 os.
Proof.
  induction 1 as [owner acc fees rpe minr maxsel maxaddr unbond epoch w H|w o _ (w0 & os & H0 & ->)].
  - exists w, []. split; [|done]. by do 9 eexists.
  - exists w0, (os ++ [o]). split; [done|]. clear H0. revert w0. induction os as [|p os IH]; intros w0; [done|]. cbn [run app]. apply IH.
Qed.

Lemma drained_covers w :
  Reachable w -> unstake_queue w = 0 -> pending_unstaking_total w = 0 -> unbonding w = 0 ->
  ust_of_users w <= total_withdrawn w.
Proof.
  intros Hr H1 H2 H3. apply reach_history in Hr as (w0 & os & H0 & ->).
  pose proof (ust_backing w0 os H0) as H. cbv zeta in H. lia.
Qed.

Lemma ustb_le_users (u : N) (m : gmap (N * N) N) : u <> SELF -> ustb u m <= users_ust m.
Proof. intros Hu. rewrite (users_split u m Hu). lia. Qed.

(** sums per nonce bound sums over a ledger *)
Definition drop_pay (u : N) (m : gmap (N * N) N) (p : pay) : gmap (N * N) N :=
  match y_tok p with TokUst n => <[(n, u) := amt_at m (n, u) - y_amt p]> m | _ => m end.

Lemma pays_le_balance (u : N) (pays : list pay) (m : gmap (N * N) N) :
  Forall (fun p => exists n, y_tok p = TokUst n) pays ->
  (forall n, ust_paid n pays <= amt_at m (n, u)) -> amounts pays <= ustb u m.
Proof.
  intros HF. revert m. induction HF as [|[t a] l [n Hn] _ IH]; intros m Hb; [cbn; unfold amounts; cbn; lia|].
  cbn in Hn. subst t. pose proof (Hb n) as H. rewrite ust_paid_cons, N.eqb_refl in H.
  pose proof (ust_balance_insert m n u (amt_at m (n, u) - a) u) as Hi. rewrite N.eqb_refl in Hi. fold (ustb u m) in Hi.
  fold (ustb u (<[(n, u) := amt_at m (n, u) - a]> m)) in Hi.
  specialize (IH (<[(n, u) := amt_at m (n, u) - a]> m)).
  unfold amounts in *. cbn [map y_amt sumN]. assert (sumN (map y_amt l) <= ustb u (<[(n, u) := amt_at m (n, u) - a]> m)); [|lia].
  apply IH. intros k. specialize (Hb k). rewrite ust_paid_cons in Hb. rewrite amt_insert.
  destruct (N.eqb_spec n k) as [->|Hk]; case_decide; simplify_eq; lia.
Qed.

Lemma drained_withdraw w u pays :
  Reachable w -> unstake_queue w = 0 -> pending_unstaking_total w = 0 -> unbonding w = 0 ->
  u <> SELF -> c_lstok (w_cfg w) = TIssued -> c_active (w_cfg w) = true -> c_usttok (w_cfg w) = TIssued ->
  Forall (fun p => 0 < y_amt p /\ exists n r, y_tok p = TokUst n /\ release_epoch n w = Some r /\ r <= w_epoch w) pays ->
  (forall n, pay_of_nonce n pays <= ust_of n u w) ->
  snd (step w (OTx u 0 pays Withdraw)) = SOk
  /\ egld_sent u (fst (step w (OTx u 0 pays Withdraw))) = pay_total pays.
Proof.
  intros Hr H1 H2 H3 Hu H4 H5 H6 HF Hb.
  assert (HM : Forall (matured w) pays).
  { eapply Forall_impl; [|exact HF]. intros [t a] (Ha & n & r & Ht & Hn & Hle). unfold release_epoch in Hn.
    destruct (w_attr w !! n) as [[e r']|] eqn:E; [|done]. injection Hn as ->. exists n, e, r. done. }
  assert (HT : Forall (fun p => exists n, y_tok p = TokUst n) pays).
  { eapply Forall_impl; [|exact HM]. intros p (n & ? & ? & ? & _). by exists n. }
  pose proof (pays_le_balance u pays (w_ust w) HT Hb) as Hs.
  pose proof (ustb_le_users u (w_ust w) Hu) as Hu2.
  pose proof (drained_covers w Hr H1 H2 H3) as Hd. unfold ust_of_users in Hd. fold (users_ust (w_ust w)) in Hd.
  unfold total_withdrawn in Hd.
  assert (HS : snd (step w (OTx u 0 pays Withdraw)) = SOk) by (apply withdraw_available; try done; lia).
  split; [done|]. apply withdraw_effects in HS as [-> _]. fold (amounts pays). unfold total_withdrawn.
  change (pay_total pays) with (amounts pays). lia.
Qed.

(** * Unstake token machinery *)
Lemma cleaned_did w o w' s n :
  UstInv w -> did w o w' s -> n <= w_last w -> (forall u, w_un w !! u <> Some n) ->
  n <= w_last w' /\ forall u, w_un w' !! u <> Some n.
Proof.
  intros HU D Hn Hz. destruct D; try exact (conj Hn Hz).
  - match goal with H : ust_maybe _ _ _ _ |- _ => rename H into Hm end.
    destruct Hm as [_|k w2 _ _ D]; [rewrite egld_paid_eq; exact (conj Hn Hz)|].
    rewrite egld_paid_eq in D. destruct D; cbn in *.
    + exact (conj Hn Hz).
    + split; [lia|]. intros v. destruct (decide (v = add64 (w_epoch w) (c_unbond (w_cfg w)))) as [->|Hv].
      * rewrite lookup_insert. intros [= E]. subst n. destruct (N.eqb_spec (w_last w) 0); lia.
      * rewrite lookup_insert_ne by done. apply Hz.
    + split; [lia|]. intros v. destruct (decide (v = add64 (w_epoch w) (c_unbond (w_cfg w)))) as [->|Hv].
      * rewrite lookup_insert. intros [= E]. lia.
      * rewrite lookup_insert_ne by done. apply Hz.
    + split; [lia|]. intros v. destruct (decide (v = u0)) as [->|K0]; [by rewrite lookup_delete|]. rewrite lookup_delete_ne by done.
      destruct (decide (v = add64 (w_epoch w) (c_unbond (w_cfg w)))) as [->|Hv].
      * rewrite lookup_insert. intros [= E]. lia.
      * rewrite lookup_insert_ne by done. apply Hz.
  - match goal with H : exec_call _ _ _ = _ |- _ => apply exec_call_frame in H as [l ->] end. exact (conj Hn Hz).
Qed.

Lemma cleaned_forever w os n :
  Reachable w -> n <= w_last w -> (forall u, w_un w !! u <> Some n) -> forall u, w_un (run w os) !! u <> Some n.
Proof.
  revert w. induction os as [|o os IH]; intros w Hr Hn Hz; [exact Hz|]. cbn [run].
  destruct (cleaned_did (set_log [] w) o _ _ n (ust w Hr) (step_did w o) Hn Hz) as [K1 K2].
  apply IH; [by apply reach_step|done|done].
Qed.

Lemma nonce_readable w :
  Reachable w ->
  (forall r n, w_un w !! r = Some n -> release_epoch n w = Some r /\ 0 < ust_of n SELF w)
  /\ (0 < w_last w -> exists e r, w_attr w !! w_last w = Some (e, r) /\ 0 < ust_of (w_last w) SELF w).
Proof.
  intros Hr. destruct (ust w Hr) as [H1 H2 H3 H4 H5]. split.
  - intros r n Hn. destruct (H1 r n Hn) as (_ & [e He] & Hb). unfold release_epoch, ust_of. rewrite He. split; [done|lia].
  - intros Hl. destruct H2 as (e & r & He & Hu); [lia|]. exists e, r. split; [done|].
    destruct (H1 _ _ Hu) as (_ & _ & Hb). unfold ust_of. lia.
Qed.

(** * Bystanders *)
Lemma bystander_did w o w' s v :
  did w o w' s -> v <> SELF -> initiator o <> Some v ->
  lbal w v <= lbal w' v /\ forall n, ubal w n v <= ubal w' n v.
Proof.
  intros D Hv Hi. unfold lbal, ubal.
  destruct D; cbn [initiator] in Hi; try (split; [apply N.le_refl|intros; apply N.le_refl]).
  - cbn. split; [|intros; apply N.le_refl]. rewrite amt_credit, amt_insert. repeat case_decide; subst; try done; lia.
  - 
    assert (Hne : v <> caller) by congruence.
    assert (HO := fun n => maybe_others _ _ _ _ n v Hv Hne H9).
    split.
    + rewrite egld_paid_eq in H9. apply ust_maybe_frame in H9 as (? & ? & ? & ? & ? & ->). cbn.
      rewrite !amt_insert. repeat case_decide; subst; try done; lia.
    + intros n. cbn. rewrite HO, egld_paid_eq. cbn. lia.
  - match goal with H : wd_post _ _ _ _ _ |- _ => destruct H as (_ & _ & HW & _) end.
    cbn. split; [lia|]. intros n. rewrite HW; [lia|done|congruence].
  - cbn. split; [|intros; apply N.le_refl]. rewrite amt_credit, amt_insert. repeat case_decide; subst; try done; lia.
  - match goal with H : exec_call _ _ _ = _ |- _ => apply exec_call_frame in H as [l ->] end. cbn.
    split; [apply N.le_refl|intros; apply N.le_refl].
  - unfold white_ok_world. cbn. split; [|intros; apply N.le_refl]. rewrite amt_credit, amt_insert. repeat case_decide; subst; try done; lia.
  - cbn. split; [|intros; apply N.le_refl]. rewrite amt_credit, amt_insert. repeat case_decide; subst; try done; lia.
  - cbn. split; [apply N.le_refl|]. intros k. rewrite amt_credit, amt_insert. repeat case_decide; simplify_eq; try done; lia.
Qed.

Lemma bystander w o v :
  v <> SELF -> initiator o <> Some v ->
  ls_balance v w <= ls_balance v (fst (step w o)) /\ forall n, ust_of n v w <= ust_of n v (fst (step w o)).
Proof. exact (bystander_did (set_log [] w) o _ _ v (step_did w o)). Qed.

(** ** Corollaries in the form of the property statements *)
Lemma Ok_inj {A} (x y : A) : Ok x = Ok y -> x = y.
Proof. congruence. Qed.

Lemma delegate_full w u a m :
  c_active (w_cfg w) = true -> u <> SELF -> MIN_EGLD <= a -> view_egld_value a w = Ok m ->
  let o := OTx u a [] Delegate in let w' := fst (step w o) in
  snd (step w o) = SOk
  /\ (forall v, ls_balance v w' = ls_balance v w + (if v =? u then m else 0))
  /\ ls_supply w' = ls_supply w + m /\ virtual_reserve w' = virtual_reserve w + a
  /\ contract_egld w' = contract_egld w + a
  /\ (exists i r, i + r = a /\ pending_egld w' = pending_egld w + r
      /\ total_withdrawn w' = total_withdrawn w + i /\ unstake_queue w' + i = unstake_queue w)
  /\ fees_reserve w' = fees_reserve w /\ unbonding w' = unbonding w
  /\ rest_unchanged w w' /\ ust_unchanged w w' /\ (forall v, egld_sent v w' = 0).
Proof.
  intros Ha Hu HM Hv o w'. assert (Hs : snd (step w o) = SOk) by by eapply delegate_available.
  destruct (view_egld_value_inv _ _ _ Hv) as (HL & Hm & ->).
  destruct (delegate_effects _ _ _ _ Hs) as (HB & HP & HE & HR & HU & HS).
  destruct (delegate_split _ _ _ _ Hs) as (i & r & Hir & H1 & H2 & H3 & _).
  split; [exact Hs|]. split; [exact HB|].
  unfold ls_supply, virtual_reserve, contract_egld, fees_reserve, unbonding. subst w' o.
  rewrite HP, delegate_pool_eq. cbn [supply reserve fees_res pfb].
  repeat split; try tauto; try apply HR; try apply HU; try exact HS. by exists i, r.
Qed.

Lemma undelegate_full w u x e :
  Reachable w -> c_active (w_cfg w) = true -> u <> SELF -> x <= ls_balance u w -> view_ls_value x w = Ok e ->
  MIN_EGLD <= e -> c_usttok (w_cfg w) = TIssued ->
  let o := OTx u 0 [Pay TokLs x] UnDelegate in let w' := fst (step w o) in
  snd (step w o) = SOk
  /\ paid_out u w w' = e
  /\ ls_balance u w' + x = ls_balance u w /\ (forall v, v <> u -> ls_balance v w' = ls_balance v w)
  /\ (forall n v, v <> SELF -> v <> u -> ust_of n v w' = ust_of n v w)
  /\ (forall v, v <> u -> egld_sent v w' = 0)
  /\ ls_supply w' + x = ls_supply w /\ virtual_reserve w' + e = virtual_reserve w
  /\ contract_egld w' + egld_sent u w' = contract_egld w
  /\ pending_egld w' + egld_sent u w' = pending_egld w
  /\ unstake_queue w' + egld_sent u w' = unstake_queue w + e
  /\ total_withdrawn w' = total_withdrawn w /\ fees_reserve w' = fees_reserve w /\ unbonding w' = unbonding w
  /\ rest_unchanged w w'.
Proof.
  intros Hr Ha Hu Hx Hv HM HT o w'. assert (Hs : snd (step w o) = SOk) by (eapply undelegate_available; eauto).
  pose proof (redeem_exact _ _ _ _ Hs) as (H0 & _ & H1 & H2 & H3).
  pose proof (redeem_quote _ _ _ _ Hs) as Hq. rewrite Hv in Hq. apply Ok_inj in Hq.
  pose proof (undelegate_effects _ _ _ _ Hs) as (x' & Hp & _ & _ & Hx0 & _ & He & _ & _ & HB & _ & HE & HP & _ & HR & _).
  injection Hp as <-.
  pose proof (undelegate_split _ _ _ _ Hs) as (i & r & Hir & Hi & _ & Hc & Hq1 & Hq2 & _).
  fold o w' in H1, H2, H3, HB, HE, HP, HR, Hi, Hc, Hq1, Hq2, Hir, Hq.
  split; [exact Hs|]. split; [by rewrite Hq|].
  split; [exact H3|]. split.
  { intros v Hv'. rewrite HB. destruct (v =? u) eqn:Ev; [apply N.eqb_eq in Ev; congruence|lia]. }
  split. { intros n v Hv1 Hv2. exact (undelegate_others _ _ _ _ n v Hs Hv1 Hv2). }
  split. { intros v Hv'. rewrite HE. destruct (u =? v) eqn:Ev; [apply N.eqb_eq in Ev; congruence|done]. }
  split; [exact H1|]. split; [by rewrite Hq|]. rewrite Hi.
  split; [exact Hc|]. split; [exact Hq2|]. split; [lia|].
  unfold total_withdrawn, fees_reserve, unbonding. rewrite HP. repeat split; apply HR.
Qed.

Lemma instant_full w u x e :
  Reachable w -> c_active (w_cfg w) = true -> u <> SELF -> x <= ls_balance u w -> view_ls_value x w = Ok e ->
  pending_egld w = e \/ e + MIN_EGLD <= pending_egld w ->
  let o := OTx u 0 [Pay TokLs x] UnDelegate in let w' := fst (step w o) in
  snd (step w o) = SOk /\ egld_sent u w' = e /\ pending_egld w' + e = pending_egld w
  /\ unstake_queue w' = unstake_queue w /\ ust_unchanged w w' /\ ls_balance u w' + x = ls_balance u w.
Proof.
  intros Hr Ha Hu Hx Hv HM o w'. assert (Hs : snd (step w o) = SOk).
  { eapply undelegate_available; eauto. destruct HM; auto. }
  pose proof (redeem_exact _ _ _ _ Hs) as (H0 & _ & H1 & H2 & H3).
  pose proof (redeem_quote _ _ _ _ Hs) as Hq. rewrite Hv in Hq. apply Ok_inj in Hq.
  destruct (view_ls_value_inv _ _ _ Hv) as (_ & _ & He0 & He).
  pose proof (undelegate_effects _ _ _ _ Hs) as (x' & Hp & _ & _ & _ & _ & _ & _ & _ & _ & _ & _ & _ & _ & HR & HU).
  injection Hp as <-.
  pose proof (undelegate_split _ _ _ _ Hs) as (i & r & Hir & Hi & _ & Hc & Hq1 & Hq2 & _ & _ & Hmax).
  fold o w' in H3, Hi, Hq1, Hq2, Hir, Hq, HR, HU, Hmax. rewrite <- Hq in Hir, Hmax.
  assert (i = e). { assert (e <= i) by (apply (Hmax e 0); lia). lia. }
  assert (r = 0) by lia. subst i r.
  split; [exact Hs|]. split; [lia|]. split; [lia|]. split; [lia|]. split; [|exact H3].
  apply HU. rewrite <- He. clear Hmax. pose proof (split_facts (pend (w_pool w)) e) as Hsf.
  assert (e <= fst (split_of (pend (w_pool w)) e)).
  { apply (split_max _ _ e 0); unfold pending_egld in HM; lia. }
  assert (fst (split_of (pend (w_pool w)) e) + snd (split_of (pend (w_pool w)) e) = e) by apply Hsf. lia.
Qed.

Lemma release_of_new64 w u eg pays :
  Reachable w -> w_epoch w + c_unbond (w_cfg w) < U64 -> snd (step w (OTx u eg pays UnDelegate)) = SOk ->
  let w' := fst (step w (OTx u eg pays UnDelegate)) in
  ust_unchanged w w' \/
  exists n r, 0 < r /\ release_epoch n w' = Some (w_epoch w + c_unbond (w_cfg w))
    /\ ust_of n u w' = ust_of n u w + r
    /\ forall k, k <> n -> ust_of k u w' = ust_of k u w.
Proof.
  intros Hr H64 Hs. pose proof (release_of_new _ _ _ _ Hr Hs) as H. by rewrite (N.mod_small _ _ H64) in H.
Qed.

Lemma withdraw_locked w os n r u eg pays p :
  Reachable w -> release_epoch n w = Some r -> w_epoch (run w os) < r -> In p pays -> y_tok p = TokUst n ->
  snd (step (run w os) (OTx u eg pays Withdraw)) <> SOk.
Proof.
  intros Hr Hn He Hp Ht Hs. pose proof (release_fixed w os n r Hr Hn) as Hn'.
  pose proof (withdraw_effects _ _ _ _ Hs) as (_ & _ & _ & _ & _ & _ & _ & _ & _ & _ & _ & _ & HF & _).
  rewrite List.Forall_forall in HF. destruct (HF p Hp) as (_ & n' & r' & Ht' & Hr' & Hle).
  rewrite Ht in Ht'. injection Ht' as <-. rewrite Hn' in Hr'. injection Hr' as <-. lia.
Qed.
