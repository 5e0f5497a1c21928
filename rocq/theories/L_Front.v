(** L_Front.v — a deposit made just before the rewards are booked, and trades that go
    ahead of others. *)
From Coq Require Import Lqa.
From Verif Require Export L_Earn Scenario.

Lemma always_here (P : world -> Prop) w os : always P w os -> P w.
Proof. destruct os; intros H; [exact (proj1 H)|exact (proj1 H)]. Qed.
Lemma always_last (P : world -> Prop) w os : always P w os -> P (run w os).
Proof. revert w. induction os as [|o os IH]; intros w [A B]; [exact A|by apply IH]. Qed.
Lemma always_weak (P Q : world -> Prop) w os : (forall v, P v -> Q v) -> always P w os -> always Q w os.
Proof. intros H. revert w. induction os as [|o os IH]; intros w [A B]; (split; [by apply H|]); [done|by apply IH]. Qed.

Lemma Qmul_l x y z : (0 <= z -> x <= y -> z * x <= z * y)%Q.
Proof. intros Hz H. rewrite !(Qmult_comm z). by apply Qmult_le_compat_r. Qed.

(** A deposit and a redemption, by the exact price. *)
Lemma deposit_price w u a pays m : Reachable w -> 0 < ls_supply w -> snd (step w (OTx u a pays Delegate)) = SOk ->
  ls_balance u (fst (step w (OTx u a pays Delegate))) = ls_balance u w + m ->
  (q m * price w <= q a < (q m + 1) * price w)%Q.
Proof.
  intros Hr HS Hs E. pose proof (proj1 (price_at_least_one w Hr)) as HR.
  destruct (mint_exact w u a pays Hr Hs) as (m' & E' & _ & A & B & _ & _). assert (m' = m) as -> by lia.
  specialize (B ltac:(lia)). assert (B' : a * ls_supply w + 1 <= (m + 1) * virtual_reserve w) by lia. clear B.
  pose proof (q_pos _ HS) as P. apply q_le in A, B'. rewrite !q_mul in A. rewrite q_add, !q_mul, q_add in B'. change (q 1) with 1%Q in B'.
  assert (Hp : (price w * q (ls_supply w) == q (virtual_reserve w))%Q) by (unfold price; field; intros Z; rewrite Z in P; lra).
  rewrite <- Hp in A, B'. split.
  - apply (Qmult_le_r _ _ _ P). eapply Qle_trans; [|exact A]. apply Qle_lteq. right. ring.
  - apply (Qmult_lt_r _ _ _ P). eapply Qlt_le_trans; [|eapply Qle_trans; [exact B'|apply Qle_lteq; right; ring]]. lra.
Qed.
Lemma redeem_price w u eg x : 0 < ls_supply w -> snd (step w (OTx u eg [Pay TokLs x] UnDelegate)) = SOk ->
  let e := paid_out u w (fst (step w (OTx u eg [Pay TokLs x] UnDelegate))) in
  (q e <= q x * price w < q e + 1)%Q.
Proof.
  intros HS Hs e. destruct (redeem_exact w u eg x Hs) as (_ & [A B] & _). fold e in A, B.
  assert (e = egld_worth w x) as ->; [|by apply worth_price].
  unfold egld_worth. apply N.div_unique with (r := x * virtual_reserve w - e * ls_supply w); lia.
Qed.
Lemma deposit_lowers w u a pays m : Reachable w -> 0 < ls_supply w -> snd (step w (OTx u a pays Delegate)) = SOk ->
  let w' := fst (step w (OTx u a pays Delegate)) in ls_balance u w' = ls_balance u w + m ->
  (q m * price w' <= q a)%Q /\ (price w <= price w')%Q.
Proof.
  intros Hr HS Hs w' E. pose proof (proj1 (price_at_least_one w Hr)) as HR.
  destruct (mint_exact w u a pays Hr Hs) as (m' & E' & _ & A & _ & _ & S1 & S2). fold w' in E', S1, S2. assert (m' = m) as -> by lia.
  assert (HS' : 0 < ls_supply w') by lia. pose proof (q_pos _ HS) as P. pose proof (q_pos _ HS') as P'. split.
  - assert (A' : m * virtual_reserve w' <= a * ls_supply w') by (rewrite S1, S2; lia). apply q_le in A'. rewrite !q_mul in A'.
    apply (Qmult_le_r _ _ _ P'). eapply Qle_trans; [|exact A']. apply Qle_lteq. right. unfold price. field. intros Z. rewrite Z in P'. lra.
  - assert (A' : virtual_reserve w * ls_supply w' <= virtual_reserve w' * ls_supply w) by (rewrite S1, S2; lia).
    apply q_le in A'. rewrite !q_mul in A'. unfold price. apply Qle_shift_div_l; [done|].
    assert (Z : (q (virtual_reserve w) / q (ls_supply w) * q (ls_supply w') == q (virtual_reserve w) * q (ls_supply w') / q (ls_supply w))%Q) by (unfold Qdiv; ring).
    rewrite Z. apply Qle_shift_div_r; [done|]. exact A'.
Qed.

(** ** C129 *)
Lemma sniper w os u a pays eg m :
  let w1 := fst (step w (OTx u a pays Delegate)) in
  let v := run w1 os in
  let e := paid_out u v (fst (step v (OTx u eg [Pay TokLs m] UnDelegate))) in
  Reachable w -> 0 < ls_supply w -> snd (step w (OTx u a pays Delegate)) = SOk ->
  ls_balance u w1 = ls_balance u w + m ->
  always (fun x => 0 < ls_supply x) w1 os ->
  snd (step v (OTx u eg [Pay TokLs m] UnDelegate)) = SOk ->
  (q a + q m * per_share w1 os < q e + 1 + price w)%Q
  /\ (q e <= q a + q m * (per_share w1 os + dust w1 os))%Q.
Proof.
  intros w1 v e Hr HS Hs Em Ha Hu.
  assert (Hr1 : Reachable w1) by by apply reach_step.
  pose proof (deposit_price w u a pays m Hr HS Hs Em) as [_ B].
  pose proof (deposit_lowers w u a pays m Hr HS Hs Em) as [C D].
  pose proof (earn_history w1 os Hr1 Ha) as [F G].
  pose proof (redeem_price v u eg m (always_last _ _ _ Ha) Hu) as [K L]. fold e in K, L.
  pose proof (q_nonneg m) as M. fold w1 in C, D. fold v in F, G.
  assert (X1 : (q m * (price w + per_share w1 os) <= q m * price v)%Q) by (apply Qmul_l; lra).
  assert (X2 : (q m * price v <= q m * (price w1 + (per_share w1 os + dust w1 os)))%Q) by (apply Qmul_l; lra).
  split; lra.
Qed.

(** ** C130 *)
Lemma no_gain w os : (forall g, In (VGain g) (bookings w os) -> g = 0) -> (per_share w os == 0)%Q.
Proof.
  revert w. induction os as [|o os IH]; intros w H; [done|]. cbn [per_share bookings] in *.
  rewrite (IH (fst (step w o))) by (intros g Hg; apply H, in_or_app; by right).
  assert (K : forall g, In (VGain g) (booked w o) -> g = 0) by (intros g Hg; apply H, in_or_app; by left).
  destruct (booked w o) as [|[| |g|] [|]]; try lra. rewrite (K g) by (by left).
  assert (Z : (q 0 == 0)%Q) by reflexivity. rewrite Z. unfold Qdiv. lra.
Qed.
(** With [t] trades and at least [S] units the price goes up by less than one part in [S - t]. *)
Lemma price_close w os S : Reachable w -> trades w os < S -> always (fun v => S <= ls_supply v) w os ->
  (forall g, In (VGain g) (bookings w os) -> g = 0) ->
  (price w <= price (run w os))%Q /\ (price (run w os) * q (S - trades w os) <= price w * q S)%Q.
Proof.
  intros Hr Ht Ha Hg. assert (Ha' : always (fun v => 0 < ls_supply v) w os) by (eapply always_weak; [|exact Ha]; cbn; lia).
  pose proof (earn_history w os Hr Ha') as [A B]. rewrite (no_gain w os Hg) in A, B.
  pose proof (small_dust w os S Hr ltac:(lia) Ha) as C. pose proof (q_pos S ltac:(lia)) as P.
  assert (C' : (dust w os * q S <= q (trades w os) * price (run w os))%Q).
  { apply (Qmult_le_r _ _ _ P) in C. eapply Qle_trans; [exact C|]. apply Qle_lteq. right. field. intros Z. rewrite Z in P. lra. }
  split; [lra|]. rewrite q_sub by lia. assert (X : (price (run w os) * q S <= (price w + 0 + dust w os) * q S)%Q) by (by apply Qmult_le_compat_r; lra). lra.
Qed.

Lemma q_le_inv a b : (q a <= q b)%Q -> a <= b.
Proof. unfold q. rewrite <- Zle_Qle. lia. Qed.
Lemma q_lt_inv a b : (q a < q b)%Q -> a < b.
Proof. unfold q. rewrite <- Zlt_Qlt. lia. Qed.

Lemma deposit_after w os u a pays m0 m S :
  let v := run w os in let o := OTx u a pays Delegate in
  Reachable w -> trades w os < S -> always (fun x => S <= ls_supply x) w os ->
  (forall g, In (VGain g) (bookings w os) -> g = 0) ->
  snd (step w o) = SOk -> snd (step v o) = SOk ->
  ls_balance u (fst (step w o)) = ls_balance u w + m0 -> ls_balance u (fst (step v o)) = ls_balance u v + m ->
  m <= m0 /\ m0 * (S - trades w os) < (m + 1) * S.
Proof.
  intros v o Hr Ht Ha Hg S0 S1 E0 E1. pose proof (always_here _ _ _ Ha) as H0. pose proof (always_last _ _ _ Ha) as H1. cbn in H0, H1. fold v in H1.
  assert (Hv : Reachable v) by by apply reach_run.
  pose proof (price_close w os S Hr Ht Ha Hg) as [A B]. fold v in A, B.
  pose proof (deposit_price w u a pays m0 Hr ltac:(lia) S0 E0) as [C D].
  pose proof (deposit_price v u a pays m Hv ltac:(lia) S1 E1) as [F G].
  pose proof (price_one w Hr ltac:(lia)) as P. pose proof (q_nonneg m) as M. pose proof (q_nonneg m0) as M0.
  pose proof (q_pos (S - trades w os) ltac:(lia)) as T. split.
  - assert (m < m0 + 1); [|lia]. apply q_lt_inv. rewrite q_add. change (q 1) with 1%Q.
    apply (Qmult_lt_r _ _ (price w)); [lra|]. eapply Qle_lt_trans; [|exact D]. eapply Qle_trans; [|exact F].
    apply Qmul_l; lra.
  - apply q_lt_inv. rewrite !q_mul, q_add. change (q 1) with 1%Q.
    apply (Qmult_lt_r _ _ (price w)); [lra|].
    assert (X : (q m0 * q (S - trades w os) * price w <= q a * q (S - trades w os))%Q).
    { assert (Z : (q m0 * q (S - trades w os) * price w == (q m0 * price w) * q (S - trades w os))%Q) by ring. rewrite Z. apply Qmult_le_compat_r; lra. }
    assert (Y : (q a * q (S - trades w os) < (q m + 1) * price v * q (S - trades w os))%Q) by (by apply Qmult_lt_compat_r).
    assert (Z : ((q m + 1) * price v * q (S - trades w os) <= (q m + 1) * (price w * q S))%Q).
    { rewrite <- Qmult_assoc. apply Qmul_l; lra. }
    lra.
Qed.
Lemma redeem_after w os u x eg S :
  let v := run w os in let o := OTx u eg [Pay TokLs x] UnDelegate in
  Reachable w -> trades w os < S -> always (fun z => S <= ls_supply z) w os ->
  (forall g, In (VGain g) (bookings w os) -> g = 0) ->
  snd (step w o) = SOk -> snd (step v o) = SOk ->
  let e0 := paid_out u w (fst (step w o)) in let e := paid_out u v (fst (step v o)) in
  e0 <= e /\ e * (S - trades w os) < (e0 + 1) * S.
Proof.
  intros v o Hr Ht Ha Hg S0 S1 e0 e. pose proof (always_here _ _ _ Ha) as H0. pose proof (always_last _ _ _ Ha) as H1. cbn in H0, H1. fold v in H1.
  pose proof (price_close w os S Hr Ht Ha Hg) as [A B]. fold v in A, B.
  pose proof (redeem_price w u eg x ltac:(lia) S0) as [C D]. pose proof (redeem_price v u eg x ltac:(lia) S1) as [F G].
  change (OTx u eg [Pay TokLs x] UnDelegate) with o in C, D, F, G. fold e0 in C, D. fold e in F, G.
  pose proof (q_nonneg x) as X. pose proof (price_one w Hr ltac:(lia)) as P.
  pose proof (q_pos (S - trades w os) ltac:(lia)) as T. pose proof (q_pos S ltac:(lia)) as PS. split.
  - assert (e0 < e + 1); [|lia]. apply q_lt_inv. rewrite q_add. change (q 1) with 1%Q.
    eapply Qle_lt_trans; [exact C|]. eapply Qle_lt_trans; [|exact G]. apply Qmul_l; lra.
  - apply q_lt_inv. rewrite !q_mul, q_add. change (q 1) with 1%Q.
    assert (Y : (q e * q (S - trades w os) <= q x * price v * q (S - trades w os))%Q) by (apply Qmult_le_compat_r; lra).
    assert (Z : (q x * price v * q (S - trades w os) <= q x * (price w * q S))%Q).
    { rewrite <- Qmult_assoc. apply Qmul_l; lra. }
    assert (V : (q x * price w * q S < (q e0 + 1) * q S)%Q) by (by apply Qmult_lt_compat_r). lra.
Qed.

(** A deposit of 1000 EGLD by a newcomer while the reply to claimRewards is under way:
    redeemed right after the reply, without a day of waiting and without ever having
    been staked, it brings 1001.72 EGLD. *)
Definition snipe_ops : list op :=
  [OTx 501 (10 * E) [] Delegate; OTx 100 0 [] ClaimRewards; OExec 0 (Some (2 * E))].
Lemma sniped :
  exists w u a m, let w1 := fst (step w (OTx u a [] Delegate)) in
    let w2 := fst (step w1 (OCb 0)) in let w3 := fst (step w2 (OTx u 0 [Pay TokLs m] UnDelegate)) in
    ReachableClean w /\ ls_balance u w = 0 /\ (exists c r, w_res w = [(KClaim c, RDone r)])
    /\ statuses w [OTx u a [] Delegate; OCb 0; OTx u 0 [Pay TokLs m] UnDelegate] = [SOk; SOk; SOk]
    /\ ls_balance u w1 = m /\ ls_balance u w3 = 0 /\ w_pv w3 = w_pv w /\ w_calls w3 = [] /\ w_epoch w3 = w_epoch w
    /\ a + ONE_EGLD <= egld_sent u w3.
Proof.
  exists (run w_staked snipe_ops), 600, (1000 * E), (1000 * E). cbv zeta.
  split. { apply (clean_run w0 (setup_ops ++ deposit_ops ++ stake_ops ++ snipe_ops)); [vm_compute; reflexivity|].
    exact (clean_deploy _ _ _ _ _ _ _ _ _ _ w0_deployed). }
  split; [vm_compute; reflexivity|]. split; [eexists; eexists; vm_compute; reflexivity|].
  vm_compute. repeat split; discriminate.
Qed.
