(** L_Split.v — what every provider is asked for. *)
From Verif Require Export Spec6 L_Select.

Lemma sub_is a b c : sub a b = Ok c -> b <= a /\ c = a - b.
Proof. intros H. rstep H. done. Qed.
Definition some_of (b : list (N * N)) : list (N * N) := List.filter (fun x => 0 <? snd x) b.

Definition room_of (p : prov) (x : N) : option N := if p_cap p =? 0 then None else Some (p_cap p - p_total p - x).

Lemma topped_none more b : (forall c x, In (c, x) b -> more c x 0 = 0) -> topped_up more b 0 = b.
Proof.
  induction b as [|[c x] b IH]; [done|]. intros H. cbn. rewrite (H c x ltac:(by left)), N.add_0_r, N.sub_0_r.
  f_equal. apply IH. intros. apply H. by right.
Qed.

Lemma under_cap_0 p x : under_cap p x 0 = 0.
Proof. unfold under_cap. rewrite N.min_0_r. by destruct (_ =? 0). Qed.

Ltac ifs := repeat match goal with |- context [if ?b then _ else _] => destruct b eqn:? end; lia.

Lemma first_deleg pv sc t a T l l' r ds rem :
  Forall2 (scored true pv sc t) l l' -> distribute_loop l' a r T true = Ok (ds, rem) ->
  batch_list ds = some_of (in_turn (fun c r => stake_first (recp pv c) (proportion (deleg_score sc t (recp pv c)) T a r) r) l r)
  /\ rem = r - sumN (map snd (batch_list ds))
  /\ Forall (fun d => d_space d = room_of (recp pv (d_addr d)) (d_amt d)) ds.
Proof.
  intros HS. revert r ds rem. induction HS as [|c i l l' (Ha & Hs & Hv & _ & Hc) _ IH]; intros r ds rem H; cbn [distribute_loop] in H.
  - injection H as <- <-. cbn. split_and!; [done|lia|constructor].
  - apply rbind_ok in H as [x [Ex H]]. cbn [in_turn]. unfold some_of at 1. cbn [List.filter snd].
    set (rule := fun c r => stake_first (recp pv c) (proportion (deleg_score sc t (recp pv c)) T a r) r) in *.
    change (stake_first (recp pv c) (proportion (deleg_score sc t (recp pv c)) T a r) r) with (rule c r).
    assert (Hx : rule c r = if MIN_EGLD <=? x then x else 0).
    { subst rule. cbn. unfold provider_amount in Ex. apply rbind_ok in Ex as [q [Eq Ex]].
      assert (q = proportion (deleg_score sc t (recp pv c)) T a r) as <-.
      { unfold proportion. destruct (0 <? T) eqn:B.
        - unfold div in Eq. destruct (T =? 0); [discriminate|]. injection Eq as <-. by rewrite Hs.
        - injection Eq as <-. destruct (T =? 0) eqn:B1; [done|lia]. }
      assert (x = under_cap (recp pv c) 0 (N.min q r)) as ->.
      { unfold under_cap. destruct Hc as [[H1 H2]|(H1 & H2 & H3)].
        - rewrite H2 in Ex. injection Ex as <-. by rewrite H1.
        - rewrite H3 in Ex. injection Ex as <-. destruct (p_cap (recp pv c) =? 0) eqn:B; [lia|]. lia. }
      unfold stake_first. change ONE_EGLD with MIN_EGLD.
      destruct (_ <? MIN_EGLD) eqn:B1, (MIN_EGLD <=? _) eqn:B2; lia. }
    destruct (MIN_EGLD <=? x) eqn:B.
    + clearbody rule. apply rbind_ok in H as [r1 [Er H]]. apply sub_is in Er as [Er ->]. apply rbind_ok in H as [sp [Es H]].
      apply rbind_ok in H as [[ds1 rem1] [E1 H]]. injection H as <- <-.
      rewrite Hx. assert (0 < MIN_EGLD) by done. destruct (0 <? x) eqn:B1; [|lia].
      destruct (IH _ _ _ E1) as (I1 & I2 & I3). cbn. rewrite Ha. split_and!.
      * f_equal. exact I1.
      * unfold batch_list in I2. lia.
      * constructor; [|done]. cbn. rewrite ?Ha. unfold room_of. destruct Hc as [[H1 H2]|(H1 & H2 & H3)].
        -- rewrite H2 in Es. injection Es as <-. by rewrite H1.
        -- rewrite H3 in Es. apply rbind_ok in Es as [s' [Es' Es]]. apply sub_is in Es' as [Es' ->]. injection Es as <-.
           destruct (p_cap (recp pv c) =? 0) eqn:B3; [lia|done].
    + clearbody rule. rewrite Hx. change (0 <? 0) with false. cbn iota. rewrite N.sub_0_r. by apply IH.
Qed.

Lemma more_deleg pv ds r ds' rem :
  Forall (fun d => d_space d = room_of (recp pv (d_addr d)) (d_amt d)) ds ->
  remaining_loop ds r true = Ok (ds', rem) ->
  batch_list ds' = topped_up (fun c x r => under_cap (recp pv c) x r) (batch_list ds) r.
Proof.
  intros HF. revert r ds' rem. induction HF as [|d ds Hd _ IH]; intros r ds' rem H; cbn [remaining_loop] in H.
  - injection H as <- <-. done.
  - destruct (r =? 0) eqn:B0.
    { injection H as <- <-. assert (r = 0) as -> by lia. rewrite topped_none; [done|]. intros. apply under_cap_0. }
    apply rbind_ok in H as [[d' r1] [E H]]. apply rbind_ok in H as [[ds1 r2] [E1 H]]. injection H as <- <-.
    apply IH in E1. cbn. cbn in E. rewrite Hd in E. unfold room_of in E.
    set (y := under_cap (recp pv (d_addr d)) (d_amt d) r).
    assert (d' = Dsel (d_addr d) (d_amt d + y) (d_space d) /\ r1 = r - y) as [-> ->].
    { subst y. unfold under_cap. destruct (p_cap (recp pv (d_addr d)) =? 0).
      - injection E as <- <-. by rewrite N.sub_diag.
      - destruct (0 <? N.min _ r) eqn:B.
        + apply rbind_ok in E as [x [Ex E]]. apply sub_is in Ex as [_ ->]. injection E as <- <-. done.
        + injection E as <- <-. assert (N.min (p_cap (recp pv (d_addr d)) - p_total (recp pv (d_addr d)) - d_amt d) r = 0) as -> by lia.
          rewrite N.add_0_r, N.sub_0_r. by destruct d. }
    cbn. f_equal. exact E1.
Qed.

Lemma first_undel pv sc t a T l l' r ds rem :
  Forall2 (scored false pv sc t) l l' -> distribute_loop l' a r T false = Ok (ds, rem) ->
  batch_list ds = some_of (in_turn (fun c r => unstake_first (net_stake (recp pv c)) (proportion (undel_score sc t (recp pv c)) T a r) r) l r)
  /\ rem = r - sumN (map snd (batch_list ds))
  /\ Forall (fun d => d_amt d <= net_stake (recp pv (d_addr d)) /\ d_space d = Some (net_stake (recp pv (d_addr d)) - d_amt d)) ds.
Proof.
  intros HS. revert r ds rem. induction HS as [|c i l l' (Ha & Hs & Hv & _ & Hc) _ IH]; intros r ds rem H; cbn [distribute_loop] in H.
  - injection H as <- <-. cbn. split_and!; [done|lia|constructor].
  - apply rbind_ok in H as [x [Ex H]]. cbn [in_turn]. unfold some_of at 1. cbn [List.filter snd].
    set (rule := fun c r => unstake_first (net_stake (recp pv c)) (proportion (undel_score sc t (recp pv c)) T a r) r) in *.
    change (unstake_first (net_stake (recp pv c)) (proportion (undel_score sc t (recp pv c)) T a r) r) with (rule c r).
    assert (Hx : rule c r = if MIN_EGLD <=? x then x else 0).
    { subst rule. cbn. unfold provider_amount in Ex. apply rbind_ok in Ex as [q [Eq Ex]].
      assert (q = proportion (undel_score sc t (recp pv c)) T a r) as <-.
      { unfold proportion. destruct (0 <? T) eqn:B.
        - unfold div in Eq. destruct (T =? 0); [discriminate|]. injection Eq as <-. by rewrite Hs.
        - injection Eq as <-. destruct (T =? 0) eqn:B1; [done|lia]. }
      cbn zeta in Ex. rewrite Hv in Ex. apply rbind_ok in Ex as [lf [El Ex]]. apply sub_is in El as [El ->].
      unfold unstake_first. change ONE_EGLD with MIN_EGLD. cbn zeta.
      generalize dependent (net_stake (recp pv c)). intros n. intros.
      replace (N.min q (N.min n r)) with (N.min (N.min q n) r) by lia.
      destruct (n - _ <? MIN_EGLD) eqn:B1.
      - destruct (n <=? r) eqn:B2.
        + injection Ex as <-. ifs.
        + apply rbind_ok in Ex as [y [Ey Ex]]. apply sub_is in Ey as [Ey ->].
          destruct (n - r <? MIN_EGLD) eqn:B3; injection Ex as <-; [change (MIN_EGLD <=? 0) with false; cbn iota|]; ifs.
      - injection Ex as <-. ifs. }
    destruct (MIN_EGLD <=? x) eqn:B.
    + clearbody rule. apply rbind_ok in H as [r1 [Er H]]. apply sub_is in Er as [Er ->]. apply rbind_ok in H as [sp [Es H]].
      apply rbind_ok in H as [[ds1 rem1] [E1 H]]. injection H as <- <-.
      rewrite Hx. assert (0 < MIN_EGLD) by done. destruct (0 <? x) eqn:B1; [|lia].
      destruct (IH _ _ _ E1) as (I1 & I2 & I3). cbn. rewrite Ha. split_and!.
      * f_equal. exact I1.
      * unfold batch_list in I2. lia.
      * constructor; [|done]. cbn. rewrite ?Ha. apply rbind_ok in Es as [s' [Es' Es]]. apply sub_is in Es' as [Es' ->]. injection Es as <-.
        rewrite <- Hv. split; [lia|done].
    + clearbody rule. rewrite Hx. change (0 <? 0) with false. cbn iota. rewrite N.sub_0_r. by apply IH.
Qed.

Lemma more_undel pv ds r ds' rem :
  Forall (fun d => d_amt d <= net_stake (recp pv (d_addr d)) /\ d_space d = Some (net_stake (recp pv (d_addr d)) - d_amt d)) ds ->
  remaining_loop ds r false = Ok (ds', rem) ->
  batch_list ds' = topped_up (fun c x r => unstake_more (net_stake (recp pv c)) x r) (batch_list ds) r.
Proof.
  intros HF. revert r ds' rem. induction HF as [|d ds [Hle Hd] HF IH]; intros r ds' rem H; cbn [remaining_loop] in H.
  - injection H as <- <-. done.
  - destruct (r =? 0) eqn:B0.
    { injection H as <- <-. assert (r = 0) as -> by lia. symmetry. apply topped_none. intros c x Hin.
      assert (x <= net_stake (recp pv c)).
      { unfold batch_list in Hin. apply in_map_iff in Hin as (e & [= <- <-] & [->|Hin]); [done|].
        rewrite List.Forall_forall in HF. by destruct (HF e Hin). }
      unfold unstake_more. ifs. }
    apply rbind_ok in H as [[d' r1] [E H]]. apply rbind_ok in H as [[ds1 r2] [E1 H]]. injection H as <- <-.
    apply IH in E1. cbn. cbn in E. rewrite Hd in E. cbn in E.
    apply rbind_ok in E as [lf [El E]]. apply sub_is in El as [El ->].
    set (n := net_stake (recp pv (d_addr d))) in *. set (y := unstake_more n (d_amt d) r).
    assert (d' = Dsel (d_addr d) (d_amt d + y) (d_space d) /\ r1 = r - y) as [-> ->].
    { destruct ((0 <? N.min (n - d_amt d) r) && _) eqn:B.
      - apply rbind_ok in E as [z [Ez E]]. apply sub_is in Ez as [Ez ->]. injection E as <- <-.
        assert (N.min (n - d_amt d) r = y) as ->; [|done]. subst y. unfold unstake_more. change ONE_EGLD with MIN_EGLD.
        destruct (n <=? d_amt d + r) eqn:B1; [lia|]. destruct (d_amt d + r + MIN_EGLD <=? n) eqn:B2; lia.
      - injection E as <- <-. assert (y = 0) as ->.
        { subst y. unfold unstake_more. change ONE_EGLD with MIN_EGLD.
          destruct (n <=? d_amt d + r) eqn:B1; [lia|]. destruct (d_amt d + r + MIN_EGLD <=? n) eqn:B2; [|done]. lia. }
        rewrite N.add_0_r, N.sub_0_r. by destruct d. }
    cbn. f_equal. exact E1.
Qed.

Lemma delegation_exact w u eg pays o sc :
  Reachable w -> snd (step w (OTx u eg pays (DelegatePending o))) = SOk ->
  c_score (w_cfg w) = Some sc -> N.of_nat (length (w_dl w)) < 2 ^ 32 ->
  let w' := fst (step w (OTx u eg pays (DelegatePending o))) in
  let b := delegation_amounts w sc (default (pending_egld w) o) in
  w_calls w' = w_calls w ++ map (fun x => KDeleg (fst x) (snd x)) b
  /\ pending_egld w' + sumN (map snd b) = pending_egld w.
Proof.
  intros Hr Hs Hsc HU. cbn zeta. pose proof (cfgok w Hr) as (HM & _).
  did_of w (OTx u eg pays (DelegatePending o)) Hs. clear Hs Ew Es.
  match goal with H : batch_amount _ _ = Ok ?x |- _ =>
    destruct (batch_amount_inv _ _ _ H) as (K0 & _ & K); assert (default (pending_egld w) o = x) as Ha by (cbn in K; unfold pending_egld; by destruct o) end.
  rewrite Ha. cbn [w_pv set_log w_dl w_ul w_cfg w_pool] in *.
  enough (batch_list ds = delegation_amounts w sc a) as Hb.
  { rewrite <- Hb. split.
    - cbn. f_equal. unfold batch_list. by rewrite map_map.
    - rewrite bl_snd. change (pend (w_pool w) - damts ds + damts ds = pend (w_pool w)). subst c. lia. }
  match goal with H : get_delegation_contract _ _ _ _ _ _ _ = _ |- _ => rename H into HG end.
  unfold get_delegation_contract in HG.
  apply rbind_ok in HG as [[] [E1 HG]]. rstep E1.
  apply rbind_ok in HG as [[sel total] [E2 HG]]. unfold select_deleg in E2. apply rbind_ok in E2 as [maxp [E3 E2]].
  apply rbind_ok in HG as [[] [_ HG]]. apply rbind_ok in HG as [sc' [E5 HG]].
  unfold get_scoring_config in E5. rewrite Hsc in E5. injection E5 as <-.
  apply rbind_ok in HG as [[ds1 rem] [E6 HG]]. injection HG as -> _.
  destruct (maxp_ok a (c_maxsel (w_cfg w)) (N.of_nat (length (w_dl w))) ltac:(lia) HM) as (m & Em & Hm0 & _ & _ & _ & ->); [lia|done|].
  rewrite Em in E3. injection E3 as <-.
  apply sel_deleg_exact in E2 as [HF Ht]; [|lia]. rewrite N.sub_0_r, firstn_min in HF.
  change (firstn _ _) with (candidates w a) in HF. rewrite (infos_net _ _ _ HF) in Ht. subst total.
  unfold distribute_amount in E6. apply rbind_ok in E6 as [[l' T'] [E7 E6]].
  pose proof (scored_all _ _ _ _ _ _ _ _ HF E7) as [HS HT']. cbn [prov_score] in HT'.
  apply rbind_ok in E6 as [[ds2 rem2] [E8 E6]].
  destruct (first_deleg _ _ _ _ _ _ _ _ _ _ HS E8) as (F1 & F2 & F3).
  unfold delegation_amounts, two_rounds. cbn zeta.
  change (net_of w (candidates w a)) with (sumN (map (fun c => net_stake (recp (w_pv w) c)) (candidates w a))).
  change (rec w) with (recp (w_pv w)). rewrite <- HT'. unfold some_of in F1. rewrite <- F1, <- F2.
  destruct (rem2 =? 0) eqn:B.
  - injection E6 as <- <-. assert (rem2 = 0) as -> by lia. rewrite topped_none; [done|]. intros. apply under_cap_0.
  - by eapply more_deleg.
Qed.

Lemma undelegation_exact w u eg pays o sc :
  Reachable w -> snd (step w (OTx u eg pays (UnDelegatePending o))) = SOk ->
  c_score (w_cfg w) = Some sc -> N.of_nat (length (w_ul w)) < 2 ^ 32 ->
  let w' := fst (step w (OTx u eg pays (UnDelegatePending o))) in
  let a := default (unstake_queue w) o in
  exists l, undel_candidates w a l
  /\ let b := undelegation_amounts w sc a l in
     w_calls w' = w_calls w ++ map (fun x => KUndel (fst x) (snd x)) b
     /\ unstake_queue w' + sumN (map snd b) = unstake_queue w.
Proof.
  intros Hr Hs Hsc HU. cbn zeta. pose proof (cfgok w Hr) as (HM & _).
  did_of w (OTx u eg pays (UnDelegatePending o)) Hs. clear Hs Ew Es.
  match goal with H : batch_amount _ _ = Ok ?x |- _ =>
    destruct (batch_amount_inv _ _ _ H) as (K0 & _ & K);
    assert (default (unstake_queue w) o = x) as Ha by (cbn in K; unfold unstake_queue; by destruct o) end.
  rewrite Ha. match goal with H : get_delegation_contract _ _ _ _ _ _ _ = _ |- _ =>
    destruct (undel_batch_candidates _ _ _ _ _ _ _ _ H HU ltac:(lia) HM)
      as (x & r & is & sc' & X1 & X2 & X3 & X4 & X5 & X6 & X7 & rem & X8) end.
  cbn [w_pv set_log w_ul w_cfg w_pool] in *. cbn in HM.
  exists x. split; [exists r; split_and!; [exact X1|exact X2|exact X3|exact X4]|].
  rewrite Hsc in X7. injection X7 as <-.
  enough (batch_list ds = undelegation_amounts w sc a x) as Hb.
  { rewrite <- Hb. split.
    - cbn. f_equal. unfold batch_list. by rewrite map_map.
    - rewrite bl_snd. change (pfu (w_pool w) - damts ds + damts ds = pfu (w_pool w)). subst c. lia. }
  unfold distribute_amount in X8. apply rbind_ok in X8 as [[l' T'] [E7 E6]].
  pose proof (scored_all _ _ _ _ _ _ _ _ X5 E7) as [HS HT']. cbn [prov_score] in HT'.
  apply rbind_ok in E6 as [[ds2 rem2] [E8 E6]].
  destruct (first_undel _ _ _ _ _ _ _ _ _ _ HS E8) as (F1 & F2 & F3).
  unfold undelegation_amounts, two_rounds. cbn zeta.
  change (net_of w x) with (sumN (map (fun c => net_stake (recp (w_pv w) c)) x)).
  change (rec w) with (recp (w_pv w)). rewrite <- HT'. unfold some_of in F1. rewrite <- F1, <- F2.
  destruct (rem2 =? 0) eqn:B.
  - injection E6 as <- <-. assert (rem2 = 0) as -> by lia. rewrite topped_none; [done|]. intros c0 y Hin.
    unfold batch_list in Hin. apply in_map_iff in Hin as (d & [= <- <-] & Hin). rewrite List.Forall_forall in F3.
    destruct (F3 d Hin) as [F4 _]. unfold unstake_more. ifs.
  - by eapply more_undel.
Qed.
