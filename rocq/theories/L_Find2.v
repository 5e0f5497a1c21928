(** L_Find2.v — lemmas and witnesses behind properties C78 to C82. *)
From Verif Require Export L_Wd L_Select L_More L_FindW.

Ltac clean_of ops :=
  apply (clean_run w0 ops); [vm_compute; reflexivity|exact (clean_deploy _ _ _ _ _ _ _ _ _ _ w0_deployed)].

(** * C78: the pot is empty when the tokens mature *)
Lemma empty_pot w u eg p pays :
  total_withdrawn w = 0 -> snd (step w (OTx u eg (p :: pays) Withdraw)) <> SOk.
Proof.
  intros H0 Hs. pose proof (withdraw_effects _ _ _ _ Hs) as (_ & _ & _ & _ & _ & _ & _ & _ & _ & _ & _ & _ & _ & [H|H]); [done|].
  rewrite H0 in H. lia.
Qed.

Lemma matured_unpaid :
  exists w u n r, ReachableClean w /\ quiet w /\ u <> SELF /\ c_active (w_cfg w) = true /\ release_epoch n w = Some r /\ r <= w_epoch w
    /\ 0 < ust_of n u w /\ ust_of_users w <= unbonding w
    /\ forall eg p pays, snd (step w (OTx u eg (p :: pays) Withdraw)) <> SOk.
Proof.
  exists (run w0 (unbonding_ops ++ [OEpoch 10])), 500, 1, 15. split; [clean_of (unbonding_ops ++ [OEpoch 10])|].
  split; [split; vm_compute; reflexivity|]. split; [discriminate|]. split; [vm_compute; reflexivity|].
  split; [vm_compute; reflexivity|]. split; [vm_compute; discriminate|]. split; [vm_compute; reflexivity|].
  split; [vm_compute; discriminate|].
  intros. apply empty_pot. vm_compute. reflexivity.
Qed.

(** * C79: a later release is paid first *)
Definition order_ops : list op :=
  setup_ops ++ deposit_ops ++ stake_ops ++ reward_ops
  ++ [OMoveLs 500 501 (40 * E); OTx 500 0 [Pay TokLs (40 * E)] UnDelegate; OEpoch 1;
      OTx 501 0 [Pay TokLs (40 * E)] UnDelegate; OEpoch 20; OTx 600 (20 * E) [] Delegate].

Lemma later_first :
  exists w u v n m r s a, ReachableClean w /\ u <> v /\ release_epoch n w = Some r /\ release_epoch m w = Some s
    /\ r < s /\ s <= w_epoch w /\ 0 < a /\ a <= ust_of n u w /\ a <= ust_of m v w
    /\ snd (step w (OTx u 0 [Pay (TokUst n) a] Withdraw)) = SOk
    /\ egld_sent u (fst (step w (OTx u 0 [Pay (TokUst n) a] Withdraw))) = a
    /\ snd (step w (OTx v 0 [Pay (TokUst m) a] Withdraw)) = SOk
    /\ egld_sent v (fst (step w (OTx v 0 [Pay (TokUst m) a] Withdraw))) = a
    /\ forall eg p pays, snd (step (fst (step w (OTx v 0 [Pay (TokUst m) a] Withdraw))) (OTx u eg (p :: pays) Withdraw)) <> SOk.
Proof.
  exists (run w0 order_ops), 500, 501, 1, 2, 15, 16, (20 * E). split; [clean_of order_ops|].
  split; [discriminate|]. do 2 (split; [vm_compute; reflexivity|]).
  split; [lia|]. split; [vm_compute; discriminate|]. split; [vm_compute; reflexivity|].
  do 2 (split; [vm_compute; discriminate|]). do 4 (split; [vm_compute; reflexivity|]).
  intros. apply empty_pot. vm_compute. reflexivity.
Qed.

(** * C80: the release epoch wraps around *)
Definition wrap_ops : list op :=
  setup_ops ++ deposit_ops ++ stake_ops ++ reward_ops ++ [OTx 100 0 [] (SetUnbondPeriod (2 ^ 64 - 1))].

Lemma release_in_past :
  exists w u x n r, ReachableClean w /\ snd (step w (OTx u 0 [Pay TokLs x] UnDelegate)) = SOk
    /\ ust_of n u w = 0 /\ 0 < ust_of n u (fst (step w (OTx u 0 [Pay TokLs x] UnDelegate)))
    /\ release_epoch n (fst (step w (OTx u 0 [Pay TokLs x] UnDelegate))) = Some r /\ r < w_epoch w
    /\ 0 < c_unbond (w_cfg w).
Proof.
  exists (run w0 wrap_ops), 500, (40 * E), 1, 4. split; [clean_of wrap_ops|].
  vm_compute. repeat split.
Qed.

Lemma release_not_past w u eg pays n :
  Reachable w -> w_epoch w + c_unbond (w_cfg w) < 2 ^ 64 -> snd (step w (OTx u eg pays UnDelegate)) = SOk ->
  let w' := fst (step w (OTx u eg pays UnDelegate)) in
  ust_of n u w < ust_of n u w' -> release_epoch n w' = Some (w_epoch w + c_unbond (w_cfg w)).
Proof.
  intros Hr H64 Hs w' Hlt. destruct (release_of_new64 w u eg pays Hr H64 Hs) as [(_ & H & _)|(k & r & _ & H1 & H2 & H3)].
  - fold w' in H. unfold ust_of in Hlt. rewrite H in Hlt. lia.
  - fold w' in H1, H2, H3. destruct (decide (n = k)) as [->|Hn]; [done|]. rewrite H3 in Hlt by done. lia.
Qed.

(** * C81: values of the maximum number of selected providers *)
Definition redeemed_ops : list op := setup_ops ++ deposit_ops ++ stake_ops ++ reward_ops ++ redeem_ops.

Lemma max_selected_blocks :
  exists w u x y, ReachableClean w /\ operator u w /\ quiet w
    /\ snd (step w (OTx u 0 [] (UnDelegatePending None))) = SOk
    /\ snd (step w (OTx u 0 [] (SetMaxSelected x))) = SOk
    /\ snd (step (fst (step w (OTx u 0 [] (SetMaxSelected x)))) (OTx u 0 [] (UnDelegatePending None))) = SErr EBadDelegationAddress
    /\ snd (step w (OTx u 0 [] (SetMaxSelected y))) = SOk
    /\ snd (step (fst (step w (OTx u 0 [] (SetMaxSelected y)))) (OTx u 0 [] (UnDelegatePending None))) = SErr EUnwrap.
Proof.
  exists (run w0 redeemed_ops), 100, (2 ^ 32), (2 ^ 64). split; [clean_of redeemed_ops|].
  split; [split_and!; [discriminate|left; vm_compute; reflexivity|vm_compute; reflexivity..]|].
  split; [split; vm_compute; reflexivity|]. do 4 (split; [vm_compute; reflexivity|]). vm_compute. reflexivity.
Qed.

Lemma max_selected_works w u m x o sc :
  Reachable w -> snd (step w (OTx m 0 [] (SetMaxSelected x))) = SOk -> x < 2 ^ 32 ->
  operator u w -> fits_queue o (unstake_queue w) ->
  c_score (w_cfg w) = Some sc -> distinct_bounds sc -> N.of_nat (length (w_ul w)) < 2 ^ 32 ->
  (forall c p, c ∈ w_ul w -> w_pv w !! c = Some p -> net_zero_or_one p) ->
  (exists c p, c ∈ w_ul w /\ w_pv w !! c = Some p /\ 0 < net_stake p) ->
  snd (step (fst (step w (OTx m 0 [] (SetMaxSelected x)))) (OTx u 0 [] (UnDelegatePending o))) = SOk.
Proof.
  intros Hr Hs Hx Hop Hq Hsc Hd Hl HF He.
  pose proof (store_effect w m 0 [] (SetMaxSelected x) Hr eq_refl Hs) as (_ & H1 & H2). cbn zeta in *.
  assert (Hr' : Reachable (fst (step w (OTx m 0 [] (SetMaxSelected x))))) by (by constructor).
  pose proof (cfgok _ Hr') as (HM & _).
  set (w' := fst (step w (OTx m 0 [] (SetMaxSelected x)))) in *. cbn [stored] in H1.
  assert (Hmx : c_maxsel (w_cfg w') = x) by (by rewrite H1).
  rewrite Hmx in HM. unfold only_config in H2.
  apply (undel_batch_works w' u o sc Hr').
  - unfold operator. rewrite H1, H2. exact Hop.
  - rewrite H2. exact Hq.
  - by rewrite H1.
  - done.
  - by rewrite H2.
  - rewrite Hmx. lia.
  - rewrite Hmx. rewrite N.mod_small by done. lia.
  - rewrite H2. exact HF.
  - rewrite H2. exact He.
Qed.

(** * C82: a batch that un-delegates nothing *)
Definition idle_ops : list op :=
  firstn 11 setup_ops
  ++ [OTx 500 (70 * E) [] Delegate; OTx 100 0 [] (DelegatePending None); OExec 0 (Some 0); OCb 0;
      OTx 500 0 [Pay TokLs (70 * E)] UnDelegate; OTx 100 0 [Pay TokLs (E / 2)] UnDelegate].

Lemma idle_batch :
  exists w u c, ReachableClean w /\ operator u w /\ quiet w /\ w_ul w = [c] /\ ONE_EGLD <= unstake_queue w
    /\ unstake_queue w <= net_stake (rec w c)
    /\ snd (step w (OTx u 0 [] (UnDelegatePending None))) = SOk
    /\ w_calls (fst (step w (OTx u 0 [] (UnDelegatePending None)))) = []
    /\ unstake_queue (fst (step w (OTx u 0 [] (UnDelegatePending None)))) = unstake_queue w.
Proof.
  exists (run w0 idle_ops), 100, 1000. split; [clean_of idle_ops|].
  split; [split_and!; [discriminate|left; vm_compute; reflexivity|vm_compute; reflexivity..]|].
  split; [split; vm_compute; reflexivity|]. split; [vm_compute; reflexivity|].
  do 2 (split; [vm_compute; discriminate|]). do 2 (split; [vm_compute; reflexivity|]). vm_compute. reflexivity.
Qed.

Lemma first_served i a T r ds rem :
  distribute_loop (i :: r) a a T false = Ok (ds, rem) -> MIN_EGLD <= a ->
  0 < i_avail i -> i_avail i <= a \/ a + MIN_EGLD <= i_avail i ->
  exists d ds', ds = d :: ds' /\ MIN_EGLD <= d_amt d.
Proof.
  intros H Ha H0 Hi. cbn [distribute_loop] in H. apply rbind_ok in H as [x [E H]].
  assert (MIN_EGLD <= x) as Hx.
  { unfold provider_amount in E. apply rbind_ok in E as [pr [_ E]]. cbv zeta in E. apply rbind_ok in E as [lf [E1 E]].
    unfold sub in E1. match type of E1 with (if ?b then _ else _) = _ => destruct b eqn:B; [|discriminate E1] end. injection E1 as <-.
    match type of E with (if ?b then _ else _) = _ => destruct b eqn:B1 end.
    - destruct (i_avail i <=? a) eqn:B2.
      + injection E as <-. lia.
      + unfold sub in E. replace (a <=? i_avail i) with true in E by lia. cbn [rbind] in E.
        destruct (i_avail i - a <? MIN_EGLD) eqn:B3; [lia|]. injection E as <-. lia.
    - injection E as <-. lia. }
  destruct (MIN_EGLD <=? x) eqn:B; [|lia].
  apply rbind_ok in H as [rem' [_ H]]. apply rbind_ok in H as [sp [_ H]]. apply rbind_ok in H as [[ds1 rem1] [_ H]].
  injection H as <- <-. eexists _, _. split; [done|]. exact Hx.
Qed.

Lemma batch_moves w u eg pays o c l :
  Reachable w -> snd (step w (OTx u eg pays (UnDelegatePending o))) = SOk ->
  N.of_nat (length (w_ul w)) < 2 ^ 32 ->
  let w' := fst (step w (OTx u eg pays (UnDelegatePending o))) in
  let a := default (unstake_queue w) o in
  holders w = c :: l ->
  net_stake (rec w c) <= a \/ a + ONE_EGLD <= net_stake (rec w c) ->
  unstake_queue w' + ONE_EGLD <= unstake_queue w.
Proof.
  intros Hr Hs HU. cbn zeta. intros Hh Hn. pose proof (cfgok w Hr) as (HM & _).
  did_of w (OTx u eg pays (UnDelegatePending o)) Hs. clear Hs Ew Es.
  match goal with H : batch_amount _ _ = Ok ?x |- _ =>
    destruct (batch_amount_inv _ _ _ H) as (K0 & _ & K);
    assert (default (unstake_queue w) o = x) as Ha by (cbn in K; unfold unstake_queue; by destruct o) end.
  rewrite Ha in Hn. match goal with H : get_delegation_contract _ _ _ _ _ _ _ = _ |- _ =>
    destruct (undel_batch_candidates _ _ _ _ _ _ _ _ H HU ltac:(lia) HM)
      as (x & r & is & sc & X1 & X2 & X3 & X4 & X5 & X6 & X7 & rem & X8) end.
  cbn [w_pv set_log w_ul w_cfg] in *. cbn in HM.
  change ONE_EGLD with MIN_EGLD in *.
  unfold holders in Hh. change (rec w) with (recp (w_pv w)) in Hh, Hn. rewrite X1 in Hh.
  clear X2 X3 X4. destruct X5 as [|cc i x is Hi _]; [done|]. cbn in Hh. injection Hh as -> _.
  unfold distribute_amount in X8. apply rbind_ok in X8 as [[l' T'] [E7 E6]].
  assert (Hav : exists i' r', l' = i' :: r' /\ i_avail i' = net_stake (recp (w_pv w) c)).
  { cbn [score_all] in E7. apply rbind_ok in E7 as [s0 [E8 E7]]. apply rbind_ok in E7 as [[r' t'] [E9 E7]]. injection E7 as <- _.
    eexists _, _. split; [done|]. cbn. destruct Hi as (p & Hp & Hi & _).
    assert (recp (w_pv w) c = p) as -> by (unfold recp; by rewrite Hp).
    apply mk_info_inv in Hi as (_&_&_&_&_&Hi&_). unfold avail in Hi. rstep Hi. done. }
  destruct Hav as (i' & r' & -> & Hav).
  assert (Hpos : 0 < net_stake (recp (w_pv w) c)).
  { assert (In c (List.filter (fun c => 0 <? net_stake (recp (w_pv w) c)) (w_ul w))) as Hin by (rewrite X1; by left).
    apply filter_In in Hin as [_ Hin]. lia. }
  apply rbind_ok in E6 as [[ds1 rem1] [E8 E6]].
  destruct (first_served _ _ _ _ _ _ E8 ltac:(lia) ltac:(lia) ltac:(rewrite Hav; exact Hn)) as (d & ds' & -> & Hd).
  assert (MIN_EGLD <= damts ds).
  { destruct (rem1 =? 0).
    - injection E6 as <- _. unfold damts. cbn [map sumN]. lia.
    - apply remaining_more in E6. inversion E6 as [|? d2 ? ds2 [_ Hd2]]; subst. unfold damts. cbn [map sumN]. lia. }
  unfold unstake_queue. cbn. subst_pools. cbn in *. lia.
Qed.

(** deciding [waits] along a history *)
Fixpoint waits_b (w : world) (os : list op) : bool :=
  (0 <? c_unbond (w_cfg w)) && (w_epoch w + c_unbond (w_cfg w) <? 2 ^ 64)
  && match os with [] => true | o :: r => waits_b (fst (step w o)) r end.
Lemma waits_sound w os : waits_b w os = true -> always waits w os.
Proof.
  revert w. induction os as [|o os IH]; intros w H; cbn [waits_b always] in *;
    apply andb_true_iff in H as [H1 H2]; apply andb_true_iff in H1 as [H0 H1]; split; auto;
    apply N.ltb_lt in H0, H1; split; assumption.
Qed.
