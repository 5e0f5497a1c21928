(** L_Exact2.v — exactly when the failures behind C57, C58 and C80 occur. *)
From Verif Require Export Spec4 L_Exact L_Typed.

(** * C57 *)
Lemma minted_pos a k : 0 < a -> 0 < minted a k <-> reserve k = 0 \/ reserve k <= a * supply k.
Proof.
  intros Ha. unfold minted. destruct (0 <? reserve k) eqn:B; [|lia].
  split.
  - intros H. right. destruct (decide (reserve k <= a * supply k)) as [|Hn]; [done|].
    rewrite N.div_small in H by lia. lia.
  - intros [H|H]; [lia|]. assert (1 <= a * supply k / reserve k) by (apply N.div_le_lower_bound; lia). lia.
Qed.

Lemma stranded_exactly w i c a u r :
  Reachable w -> nth_error (w_res w) i = Some (KWhite c a u, r) ->
  let w' := fst (step w (OCb i)) in
  (snd (step w (OCb i)) = SOk
   <-> c_lstok (w_cfg w) = TIssued
       /\ (r = RFail \/ virtual_reserve w = 0 \/ virtual_reserve w <= a * ls_supply w))
  /\ (snd (step w (OCb i)) <> SOk ->
      w_pv w' = w_pv w /\ w_dl w' = w_dl w /\ w_ul w' = w_ul w /\ w_pool w' = w_pool w
      /\ w_ls w' = w_ls w /\ w_log w' = [] /\ w_calls w' = w_calls w /\ w_res w' = drop_nth i (w_res w)
      /\ contract_egld w' = contract_egld w + match r with RFail => a | RDone _ => 0 end).
Proof.
  intros Hr Hn w'.
  assert (Hpos : 0 < a).
  { pose proof (who w Hr) as HW. rewrite list.Forall_forall in HW. specialize (HW _ (res_unanswered _ _ _ _ Hn)). cbn in HW.
    pose proof MIN_pos. lia. }
  split.
  - split.
    + intros Hs. clear w'. did_of w (OCb i) Hs;
        match goal with H : nth_error (w_res (set_log [] w)) i = Some _ |- _ =>
          change (nth_error (w_res w) i) with (nth_error (w_res (set_log [] w)) i) in Hn; rewrite Hn in H;
          (discriminate H || (injection H as <- <- <- <-)) end.
      * split; [done|]. right. by apply minted_pos.
      * split; [done|]. left. by destruct r.
    + intros [HI H]. destruct r as [|v].
      * exact (proj1 (cb_white_failed w i c a u HI Hn)).
      * destruct H as [H|H]; [done|].
        exact (proj1 (white_settled w i c a u (RDone v) Hr HI Hn H)).
  - intros Hs. subst w'. unfold step in *. cbn [w_res set_log] in *. rewrite Hn in *.
    destruct (callback _ _ _) as [w2|e] eqn:E; [done|]. cbn. split_and!; try done.
Qed.

(** * C58 *)
Lemma config_exactly w u eg pays s v o :
  let w' := fst (step w (OTx u eg pays (SetScoringConfig s))) in
  Reachable w -> snd (step w (OTx u eg pays (SetScoringConfig s))) = SOk -> operator v w ->
  (fits_queue o (pending_egld w) -> N.of_nat (length (w_dl w)) < 2 ^ 32 ->
   (forall c p, c ∈ w_dl w -> w_pv w !! c = Some p -> within_cap p) ->
   (exists c p, c ∈ w_dl w /\ w_pv w !! c = Some p /\ has_room p) ->
   snd (step w' (OTx v 0 [] (DelegatePending o))) = SOk
   <-> forall c, In c (candidates w (default (pending_egld w) o)) -> ratable s (rec w c))
  /\ (fits_queue o (unstake_queue w) -> N.of_nat (length (w_ul w)) < 2 ^ 32 ->
   c_maxsel (w_cfg w) < 2 ^ 64 -> c_maxsel (w_cfg w) mod 2 ^ 32 <> 0 ->
   (forall c p, c ∈ w_ul w -> w_pv w !! c = Some p -> net_zero_or_one p) ->
   (exists c p, c ∈ w_ul w /\ w_pv w !! c = Some p /\ 0 < net_stake p) ->
   forall l, undel_candidates w (default (unstake_queue w) o) l ->
   snd (step w' (OTx v 0 [] (UnDelegatePending o))) = SOk
   <-> forall c, In c l -> ratable s (rec w c)).
Proof.
  intros w' Hr Hs Hop. assert (Hr' : Reachable w') by (by apply reach_step).
  assert (Ew' : w' = set_cfg (set_c_score (Some s) (w_cfg w)) (set_log [] w)).
  { subst w'. did_of w (OTx u eg pays (SetScoringConfig s)) Hs. done. }
  clearbody w'. pose proof (cfgok w Hr) as (HM & _). pose proof (lists w Hr) as L. split.
  - intros Hq Hl HF (c0 & p0 & Hin & Hp0 & Hroom).
    assert (Ec : forall a, candidates w' a = candidates w a) by (subst w'; done).
    assert (Hrec : forall c, rec w' c = rec w c) by (subst w'; done).
    rewrite (delegate_pending_iff w' v 0 [] o Hr' ltac:(subst w'; exact Hl)). cbv zeta.
    assert (Eq : pending_egld w' = pending_egld w) by (subst w'; done). rewrite Eq, Ec.
    set (a := default (pending_egld w) o) in *.
    assert (Ha : ONE_EGLD <= a) by (destruct Hq as [H1 H2]; subst a; destruct o; cbn in *; lia).
    split.
    + intros (_ & _ & _ & _ & _ & _ & sc & Hsc & HR) c Hc. subst w'. cbn in Hsc. injection Hsc as <-. exact (HR c Hc).
    + intros HR. split_and!; try done.
      * subst w'. exact Hop.
      * unfold candidates. assert (1 <= a / ONE_EGLD) by (apply N.div_le_lower_bound; [done|lia]).
        assert (Hf : In c0 (List.filter (fun c => takes_more (rec w c)) (w_dl w))).
        { apply filter_In. split; [by apply elem_of_list_In|]. unfold rec. rewrite Hp0.
          change (takes_more p0 = true). unfold takes_more.
          destruct Hroom as (-> & _ & Hcap). cbn [andb]. apply orb_true_iff. rewrite N.eqb_eq, N.leb_le. exact Hcap. }
        destruct (N.to_nat (N.min (a / ONE_EGLD) (c_maxsel (w_cfg w)))) as [|k] eqn:Ek; [lia|].
        destruct (List.filter _ _); [by destruct Hf|done].
      * intros l1 c l2 E _. rewrite Hrec.
        assert (Hc : c ∈ w_dl w) by (subst w'; cbn in E; rewrite E; set_solver).
        destruct (l_rec _ _ _ _ L c Hc) as [p Hp]. unfold rec. rewrite Hp. exact (HF c p Hc Hp).
      * exists s. split; [by subst w'|]. intros c Hc. rewrite Hrec. by apply HR.
  - intros Hq Hl HU1 HU2 HF (c0 & p0 & Hin & Hp0 & Hnet) l Hcand.
    assert (Ec : forall a l, undel_candidates w' a l <-> undel_candidates w a l) by (subst w'; done).
    assert (Hrec : forall c, rec w' c = rec w c) by (subst w'; done).
    assert (HFr : forall c, c ∈ w_ul w -> net_zero_or_one (rec w c)).
    { intros c Hc. pose proof Hc as Hc'. apply (l_same _ _ _ _ L) in Hc'.
      destruct (l_rec _ _ _ _ L c Hc') as [p Hp]. unfold rec. rewrite Hp. exact (HF c p Hc Hp). }
    assert (Hu' : w_ul w' = w_ul w) by (subst w'; done).
    rewrite (undelegate_pending_iff w' v 0 [] o Hr' ltac:(subst w'; exact Hl)). cbv zeta.
    assert (Eq : unstake_queue w' = unstake_queue w) by (subst w'; done). rewrite Eq.
    set (a := default (unstake_queue w) o) in *.
    assert (Ha : ONE_EGLD <= a) by (destruct Hq as [H1 H2]; subst a; destruct o; cbn in *; lia).
    split.
    + intros (_ & _ & _ & _ & _ & _ & l' & sc & Hl' & _ & Hsc & HR) c Hc. apply Ec in Hl'.
      rewrite (undel_candidates_unique _ _ _ _ Hcand Hl') in Hc.
      subst w'. cbn in Hsc. injection Hsc as <-. exact (proj2 (HR c Hc)).
    + intros HR. split_and!; try done.
      * subst w'. exact Hop.
      * subst w'. exact HU1.
      * intros l1 c l2 E _ _. rewrite Hrec. rewrite Hu' in E.
        assert (Hc : c ∈ w_ul w) by (rewrite E; set_solver).
        destruct (HFr c Hc); lia.
      * exists l, s. split; [by apply Ec|]. destruct Hcand as (r & Hh & Hlim & Hno & Hend).
        split; [|split; [by subst w'|]].
        -- intros ->. cbn [app length] in *.
           assert (Hf : In c0 (holders w)).
           { unfold holders. apply filter_In. split; [by apply elem_of_list_In|]. unfold rec. rewrite Hp0.
             change ((0 <? net_stake p0) = true). lia. }
           destruct Hend as [->|[H|H]].
           ++ rewrite Hh in Hf. by destruct Hf.
           ++ unfold undel_limit in H. cbn in H. lia.
           ++ destruct H as [H _]. cbn in H. assert (1 <= a / ONE_EGLD) by (apply N.div_le_lower_bound; [done|lia]).
              destruct (w_ul w) as [|x y]; [by apply elem_of_nil in Hin|]. cbn [length] in H. lia.
        -- intros c Hc. rewrite Hrec. split; [|by apply HR].
           assert (Hf : In c (holders w)) by (rewrite Hh; apply in_or_app; by left).
           unfold holders in Hf. apply filter_In in Hf as [Hf Hpos]. apply elem_of_list_In in Hf.
           pose proof (HFr c Hf) as [H|H]; unfold net_stake in *; lia.
Qed.

(** * C80 *)
Definition Period (w : world) : Prop := w_epoch w < U64 /\ c_unbond (w_cfg w) < U64.

Lemma period w : Reachable w -> Period w.
Proof.
  apply reach_ind.
  - intros owner acc fees rpe minr maxsel maxaddr unbond epoch v H. unfold deploy in H. rstep H. unfold init in *.
    repeat match goal with E : rbind _ _ = Ok _ |- _ => rstep E end. unfold Period. cbn.
    repeat match goal with H : _ && _ = true |- _ => apply andb_true_iff in H as [? ?] end. lia.
  - intros v H. exact H.
  - intros v o v' s _ (H1 & H2) D. unfold Period. destruct D; subst_pools; try (cbn; tauto).
    + um_clean. cbn. tauto.
    + cbn. match goal with H : match ep with _ => _ end |- _ =>
        clear -H H1 H2; destruct ep; try (by destruct H); first [rewrite H|destruct H as [-> H]]; cbn; tauto end.
    + match goal with H : exec_call _ _ _ = _ |- _ => apply exec_call_frame in H as [l ->] end. cbn. tauto.
    + cbn. destruct ls; cbn; tauto.
    + cbn. destruct ls; cbn; tauto.
Qed.

Lemma release_exactly w u eg pays n :
  Reachable w -> snd (step w (OTx u eg pays UnDelegate)) = SOk ->
  let w' := fst (step w (OTx u eg pays UnDelegate)) in
  ust_of n u w < ust_of n u w' ->
  exists r, release_epoch n w' = Some r /\ r = (w_epoch w + c_unbond (w_cfg w)) mod 2 ^ 64
    /\ (r < w_epoch w <-> 2 ^ 64 <= w_epoch w + c_unbond (w_cfg w)).
Proof.
  intros Hr Hs w' Hlt. destruct (release_of_new w u eg pays Hr Hs) as [(_ & H & _)|(k & r & _ & H1 & H2 & H3)].
  - fold w' in H. unfold ust_of in Hlt. rewrite H in Hlt. lia.
  - fold w' in H1, H2, H3. destruct (decide (n = k)) as [->|Hn]; [|rewrite H3 in Hlt by done; lia].
    eexists. split; [exact H1|]. split; [done|]. destruct (period w Hr) as [P1 P2].
    change (2 ^ 64) with U64. set (e := w_epoch w) in *. set (b := c_unbond (w_cfg w)) in *.
    destruct (decide (e + b < U64)) as [D|D].
    + rewrite N.mod_small by done. lia.
    + assert (E : (e + b) mod U64 = e + b - U64); [|rewrite E; lia].
      replace (e + b) with (e + b - U64 + 1 * U64) at 1 by lia. rewrite N.mod_add by done. apply N.mod_small. lia.
Qed.
