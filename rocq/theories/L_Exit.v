(** L_Exit.v — the procedure by which everybody is paid out. *)
From Verif Require Export L_Donate L_More L_Order.

(** one provider *)
Definition collect1 (m c : addr) (v : N) : list op :=
  [OTx m 0 [] (WithdrawPending c); OExec 0 (Some v); OCb 0].

(** what stays the same when EGLD is collected *)
Definition kept (w w' : world) : Prop :=
  w_cfg w' = w_cfg w /\ w_dl w' = w_dl w /\ w_ul w' = w_ul w /\ w_epoch w' = w_epoch w /\ w_owner w' = w_owner w
  /\ w_ls w' = w_ls w /\ ust_unchanged w w' /\ quiet w'
  /\ w_pool w' = set_pfb (unbonding w') (set_withdrawn (total_withdrawn w') (w_pool w)).

Lemma exec_withd w c v :
  w_calls w = [KWithd c] -> v <= snd (live_of w c) ->
  step w (OExec 0 (Some v))
  = (set_res (w_res w ++ [(KWithd c, RDone v)]) (set_calls []
      (set_live (<[c := (fst (live_of w c), snd (live_of w c) - v)]> (w_live w)) (set_log [] w))), SOk).
Proof.
  intros Hc Hv. unfold step. cbn [w_calls set_log]. rewrite Hc. cbn [nth_error exec_call].
  change (live_of (set_log [] w) c) with (live_of w c). destruct (live_of w c) as [x u]. cbn [fst snd] in *.
  replace (v <=? u) with true by lia. cbn. by rewrite Hc.
Qed.

Lemma cb_withd_works w i c v p :
  nth_error (w_res w) i = Some (KWithd c, RDone v) -> c_lstok (w_cfg w) = TIssued ->
  w_pv w !! c = Some p -> v <= p_unstaked p -> v <= pfb (w_pool w) -> snd (step w (OCb i)) = SOk.
Proof.
  intros Hn Hl Hp Hv Hb. cb_step Hn. cbn [callback attached is_done].
  unfold withdraw_tokens_callback. destruct (0 <? v); [|done].
  unfold cache_new, ls_token_id. cbn. rewrite Hl. cbn. unfold sub at 1; replace (v <=? pfb (w_pool w)) with true by lia. cbn.
  unfold upd_prov, get_prov. cbn. rewrite Hp. cbn. unfold sub. by replace (v <=? p_unstaked p) with true by lia.
Qed.

Lemma collect_one w m c p :
  Reachable w -> quiet w -> operator m w -> w_pv w !! c = Some p -> p_unstaked p = snd (live_of w c) ->
  let w' := run w (collect1 m c (snd (live_of w c))) in
  Forall (eq SOk) (statuses w (collect1 m c (snd (live_of w c)))) /\ kept w w'
  /\ w_pv w' = <[c := set_p_unstaked 0 p]> (w_pv w)
  /\ (forall d, d <> c -> live_of w' d = live_of w d).
Proof.
  intros Hr [Hc Hq] Hop Hp Hl.
  assert (Hb : p_unstaked p <= pfb (w_pool w)).
  { pose proof (unbonding_is_sum w Hr) as Hs. unfold unbonding in Hs. rewrite Hs.
    pose proof (gat_le (fun (_ : N) q => p_unstaked q) (w_pv w) c) as G. unfold gat in G. by rewrite Hp in G. }
  pose proof (withdraw_pending_available w m c Hop ltac:(eauto)) as S1.
  destruct (withdraw_pending_done w m 0 [] c S1) as (_ & _ & N1).
  unfold collect1. cbn [run statuses]. rewrite S1.
  set (w1 := fst (step w (OTx m 0 [] (WithdrawPending c)))) in *.
  destruct Hop as (_ & _ & Hlt & _).
  unfold only_new_call in N1. rewrite Hc in N1. cbn [app] in N1.
  assert (Ec : w_calls w1 = [KWithd c]) by (by rewrite N1).
  assert (El : live_of w1 = live_of w) by (by rewrite N1).
  pose proof (exec_withd w1 c (snd (live_of w c)) Ec ltac:(rewrite El; lia)) as S2. rewrite S2. cbn [fst snd].
  rewrite El in *. set (v := snd (live_of w c)) in *.
  match goal with |- context [step ?x (OCb 0)] => set (w2 := x) in * end.
  assert (Er : w_res w2 = [(KWithd c, RDone v)]) by (unfold w2; rewrite N1; cbn; by rewrite Hq).
  assert (Hn : nth_error (w_res w2) 0 = Some (KWithd c, RDone v)) by (by rewrite Er).
  assert (Hp2 : w_pv w2 !! c = Some p) by (unfold w2; rewrite N1; done).
  assert (S3 : snd (step w2 (OCb 0)) = SOk).
  { apply (cb_withd_works w2 0 c v p Hn); [unfold w2; by rewrite N1|done|lia|unfold w2; rewrite N1; cbn; lia]. }
  destruct (cb_withd w2 0 c _ Hn S3) as (_ & K1 & K2 & K3 & K4 & K5 & K6 & K7 & K8 & K9 & [K10 K11] & K12).
  rewrite S3. split; [repeat constructor|]. set (w3 := fst (step w2 (OCb 0))) in *.
  destruct K12 as (K12 & K13 & K14 & K15). destruct K11 as (? & ? & ? & ?).
  split_and!.
  - unfold kept, ust_unchanged, quiet. rewrite Er in K9. cbn in K9.
    split_and!; try (etrans; [eassumption|]; unfold w2; rewrite N1; reflexivity).
    done.
  - destruct (decide (v = 0)) as [E|E].
    + rewrite (K4 E). unfold w2. rewrite N1. cbn. rewrite insert_id; [done|].
      rewrite Hp. f_equal. rewrite E in Hl. revert Hl. clear. destruct p. cbn. by intros ->.
    + destruct (K5 ltac:(lia)) as (q & Hq1 & _ & ->). rewrite Hp2 in Hq1. injection Hq1 as <-.
      unfold w2. rewrite N1. cbn. repeat f_equal. lia.
  - intros d Hd. unfold live_of. rewrite K15. unfold w2. rewrite N1. cbn. by rewrite lookup_insert_ne.
Qed.

Lemma gsum_zeros (m : gmap N prov) (f : prov -> N) :
  (forall c p, m !! c = Some p -> f p = 0) -> gsum (fun _ p => f p) m = 0.
Proof.
  induction m as [|c p m Hc IH] using map_ind; intros H; [apply gsum_empty|].
  rewrite gsum_insert_new by done. rewrite IH.
  - rewrite (H c p); [done|apply lookup_insert].
  - intros d q Hd. apply (H d q). rewrite lookup_insert_ne; [done|congruence].
Qed.

Lemma kept_trans a b c : kept a b -> kept b c -> kept a c.
Proof.
  unfold kept, ust_unchanged. intros (A1 & A2 & A3 & A4 & A5 & A6 & (A7 & A8 & A9 & A10) & A11 & A12)
    (B1 & B2 & B3 & B4 & B5 & B6 & (B7 & B8 & B9 & B10) & B11 & B12).
  split_and!; try congruence; try exact B11. rewrite B12 at 1. rewrite A12. reflexivity.
Qed.

Lemma kept_refl w : quiet w -> kept w w.
Proof. intros H. unfold kept, ust_unchanged. split_and!; try done; try apply H. unfold unbonding, total_withdrawn. by destruct (w_pool w). Qed.

Lemma operator_kept m w w' : operator m w -> kept w w' -> operator m w'.
Proof. unfold operator, kept. intros (A & B & C & D) (E1 & _ & _ & _ & E5 & _). by rewrite E1, E5. Qed.

Lemma collect_list cs m f w :
  NoDup cs -> Reachable w -> quiet w -> operator m w ->
  (forall c, c ∈ cs -> f c = snd (live_of w c) /\ exists p, w_pv w !! c = Some p /\ p_unstaked p = snd (live_of w c)) ->
  let ops := flat_map (fun c => collect1 m c (f c)) cs in
  Forall (eq SOk) (statuses w ops) /\ kept w (run w ops)
  /\ forall c, w_pv (run w ops) !! c = (if bool_decide (c ∈ cs) then set_p_unstaked 0 else id) <$> w_pv w !! c.
Proof.
  revert w. induction cs as [|c cs IH]; intros w Hnd Hr Hq Hop HF; cbn zeta.
  - cbn [flat_map run statuses]. split_and!; [constructor|by apply kept_refl|].
    intros c. rewrite bool_decide_false by set_solver. by rewrite option_fmap_id.
  - apply list.NoDup_cons in Hnd as [Hni Hnd]. destruct (HF c) as (Hf & p & Hp & Hu); [set_solver|].
    destruct (collect_one w m c p Hr Hq Hop Hp Hu) as (S1 & K1 & P1 & L1). rewrite <- Hf in S1, K1, P1, L1.
    cbn [flat_map]. rewrite run_app, statuses_app. set (w1 := run w (collect1 m c (f c))) in *.
    destruct (IH w1 Hnd) as (S2 & K2 & P2).
    + by apply reach_run_.
    + by apply K1.
    + by apply (operator_kept m w).
    + intros d Hd. assert (d <> c) by congruence. rewrite P1, L1, lookup_insert_ne by done. apply HF. set_solver.
    + split; [|split].
      * apply list.Forall_app. done.
      * by apply (kept_trans _ w1).
      * intros d. rewrite P2, P1. destruct (decide (d = c)) as [->|Hd].
        -- rewrite (bool_decide_true (c ∈ c :: cs)), bool_decide_false by set_solver.
           rewrite lookup_insert, Hp. done.
        -- rewrite lookup_insert_ne by done. f_equal.
           destruct (decide (d ∈ cs)); [rewrite !bool_decide_true by set_solver|rewrite !bool_decide_false by set_solver]; done.
Qed.

(** everybody is paid out *)
Lemma exit_procedure w0 os m d a e u pays :
  Deployed w0 -> along orderly w0 os ->
  let w := run w0 os in
  quiet w -> operator m w -> c_usttok (w_cfg w) = TIssued -> d <> SELF -> u <> SELF ->
  unstake_queue w + ONE_EGLD <= a -> 0 < ls_worth w a -> w_epoch w + e < 2 ^ 64 ->
  Forall (fun p => 0 < y_amt p /\ exists n r, y_tok p = TokUst n /\ release_epoch n w = Some r /\ r <= w_epoch w + e) pays ->
  (forall n, pay_of_nonce n pays <= ust_of n u w) ->
  let ops := OEpoch e :: collect m w ++ [OTx d a [] Delegate; OTx u 0 pays Withdraw] in
  Forall (eq SOk) (statuses w ops) /\ egld_sent u (run w ops) = pay_total pays.
Proof.
  intros Hd Ho w Hq Hop Hut Hd0 Hu Ha Hls He HF Hb. cbn zeta.
  assert (Hc : clean_history w0 os) by (by apply ordered_clean).
  assert (Hr : Reachable w) by (apply reach_run_, deployed_reach, Hd).
  assert (Hrec : forall c p, w_pv w !! c = Some p -> p_pun p = 0 /\ p_unstaked p = snd (live_of w c)).
  { intros c p Hp. split.
    - assert (ReachableClean w) as Hrc.
      { apply clean_run_reach; [|done]. destruct Hd as (? & ? & ? & ? & ? & ? & ? & ? & ? & Hd). by eapply clean_deploy. }
      destruct (in_flight_clean w c p Hrc Hp) as [_ ->]. unfold undel_in_flight, unanswered.
      destruct Hq as [-> ->]. done.
    - pose proof (ordered_books_settled w0 os Hd Ho c) as HB. cbn zeta in HB. fold w in HB.
      destruct Hq as [_ Hq]. rewrite Hq in HB. specialize (HB ltac:(done)). unfold recorded in HB. rewrite Hp in HB.
      by rewrite <- HB. }
  change (2 ^ 64) with U64 in He.
  assert (S0 : step w (OEpoch e) = (set_epoch (w_epoch w + e) (set_log [] w), SOk)).
  { unfold step. cbn [w_epoch set_log]. by replace (w_epoch w + e <? U64) with true by lia. }
  cbn [statuses run]. rewrite S0. cbn [fst snd].
  set (w1 := set_epoch (w_epoch w + e) (set_log [] w)).
  assert (Hr1 : Reachable w1) by (pose proof (reach_step w (OEpoch e) Hr) as K; rewrite S0 in K; exact K).
  destruct (list_views w1 Hr1) as (Hnd & _ & _ & Hlr).
  destruct (collect_list (w_dl w1) m (fun c => snd (live_of w c)) w1 Hnd Hr1 Hq Hop) as (S2 & K2 & P2).
  { intros c Hc1. split; [done|]. destruct (Hlr c Hc1) as [p Hp]. exists p. split; [done|]. by apply Hrec. }
  change (flat_map (fun c => collect1 m c (snd (live_of w c))) (w_dl w1)) with (collect m w) in *.
  rewrite statuses_app, run_app. set (w2 := run w1 (collect m w)) in *.
  assert (Hr2 : Reachable w2) by (by apply reach_run_).
  destruct K2 as (C1 & C2 & C3 & C4 & C5 & C6 & (C7 & C8 & C9 & C10) & C11 & C12).
  assert (Hw2 : ls_worth w2 a = ls_worth w a) by (unfold ls_worth, virtual_reserve, ls_supply; by rewrite C12).
  assert (Hq2 : unstake_queue w2 = unstake_queue w) by (unfold unstake_queue; by rewrite C12).
  destruct Hop as (Hm & Hm2 & Hlt & Hact).
  pose proof (delegate_worth w2 d a) as HD. cbn zeta in HD.
  destruct HD as (S3 & _ & _ & _ & _ & _ & _ & U3 & R3 & T3 & _);
    [by rewrite C1|by rewrite C1|done|lia|by rewrite Hw2|].
  destruct (delegate_split w2 d a [] S3) as (i & r & I1 & I2 & I3 & I4 & _ & _ & I5).
  change MIN_EGLD with ONE_EGLD in I5. specialize (I5 (unstake_queue w2) (a - unstake_queue w2) ltac:(lia) ltac:(lia) ltac:(lia) ltac:(lia)).
  cbn [statuses run]. rewrite S3. set (w3 := fst (step w2 (OTx d a [] Delegate))) in *.
  assert (Hr3 : Reachable w3) by (by constructor).
  destruct R3 as (R31 & R32 & R33 & R34 & R35 & R36 & R37 & R38 & R39). destruct T3 as (T31 & T32 & T33 & T34).
  assert (Hpv : forall c p, w_pv w3 !! c = Some p -> p_pun p = 0 /\ p_unstaked p = 0).
  { intros c p Hp. rewrite R34, P2 in Hp. change (w_pv w1) with (w_pv w) in Hp.
    destruct (w_pv w !! c) as [q|] eqn:Eq; [|done]. destruct (Hrec c q Eq) as [E1 E2].
    case_bool_decide as Hin; injection Hp as <-; [done|]. split; [done|]. cbn.
    pose proof (l_unlisted _ _ _ _ (lists w Hr) c q Eq Hin) as Hfr. by apply Hfr. }
  destruct (drained_withdraw w3 u pays) as [S4 E4]; try done.
  - lia.
  - unfold pending_unstaking_total. apply gsum_zeros. intros c p Hp. by apply (Hpv c).
  - rewrite (unbonding_is_sum w3 Hr3). unfold unstaked_total. apply gsum_zeros. intros c p Hp. by apply (Hpv c).
  - by rewrite R31, C1.
  - by rewrite R31, C1.
  - by rewrite R31, C1.
  - eapply List.Forall_impl; [|exact HF]. cbn. intros p (H1 & n & rr & H2 & H3 & H4). split; [done|]. exists n, rr.
    unfold release_epoch in *. rewrite T33, C9, R35, C4. done.
  - intros n. unfold ust_of. rewrite T32, C8. apply Hb.
  - rewrite S4. split; [|exact E4]. constructor; [done|]. apply list.Forall_app. split; [done|]. repeat constructor.
Qed.

Lemma balance_up u n r (w w' : world) :
  ust_of n u w' = ust_of n u w + r -> (forall k, k <> n -> ust_of k u w' = ust_of k u w) ->
  ust_balance u w' = ust_balance u w + r.
Proof.
  intros H1 H2. unfold ust_balance, ust_of in *.
  rewrite (gsum_ext_amt (fun k : N * N => snd k =? u) (w_ust w') (<[(n, u) := amt_at (w_ust w) (n, u) + r]> (w_ust w))).
  - pose proof (ust_balance_insert (w_ust w) n u (amt_at (w_ust w) (n, u) + r) u) as H. rewrite N.eqb_refl in H. lia.
  - intros [k v] Hk. cbn in Hk. assert (v = u) as -> by lia. rewrite amt_insert. case_decide as E.
    + injection E as <-. done.
    + apply H2. congruence.
Qed.

Lemma along_app P w os1 os2 : along P w os1 -> along P (run w os1) os2 -> along P w (os1 ++ os2).
Proof.
  revert w. induction os1 as [|o os IH]; intros w H1 H2; [done|]. cbn [app along run] in *. destruct H1. split; auto.
Qed.

(** a holder of LS tokens gets their whole worth in EGLD *)
Lemma holder_exit w0 os m d u x :
  Deployed w0 -> along orderly w0 os ->
  let w := run w0 os in
  quiet w -> operator m w -> c_usttok (w_cfg w) = TIssued -> d <> SELF -> u <> SELF ->
  x <= ls_balance u w -> ONE_EGLD <= egld_worth w x -> w_epoch w + c_unbond (w_cfg w) < 2 ^ 64 ->
  let redeem := [OTx u 0 [Pay TokLs x] UnDelegate] in
  exists a pays,
    let ops := redeem ++ OEpoch (c_unbond (w_cfg w)) :: collect m w ++ [OTx d a [] Delegate; OTx u 0 pays Withdraw] in
    Forall (eq SOk) (statuses w ops)
    /\ egld_sent u (run w redeem) + egld_sent u (run w ops) = egld_worth w x.
Proof.
  intros Hd Ho w Hq Hop Hut Hd0 Hu Hx He H64. cbn zeta.
  assert (Hr : Reachable w) by (apply reach_run_, deployed_reach, Hd).
  pose proof Hop as (Hm & Hm2 & Hlt & Hact).
  destruct (undelegate_worth w u x Hr Hact Hlt Hut Hu Hx He) as (S1 & P1 & _ & _ & _ & _ & V1 & V2 & _ & _ & _ & _ & _ & _ & R).
  pose proof (release_of_new64 w u 0 _ Hr H64 S1) as HN. cbn zeta in HN.
  set (o := OTx u 0 [Pay TokLs x] UnDelegate) in *. set (w1 := fst (step w o)) in *.
  destruct R as (R1 & R2 & R3 & R4 & R5 & R6 & R7 & R8 & R9).
  assert (Ew1 : w1 = run w0 (os ++ [o])) by (rewrite run_app; done).
  assert (Ho1 : along orderly w0 (os ++ [o])) by (apply along_app; [done|done]).
  assert (Hsup : ls_supply w1 = 0 -> virtual_reserve w1 = 0).
  { intros E. assert (x = ls_supply w) as Ex by lia. unfold egld_worth in V2. rewrite Ex in V2.
    assert (ls_supply w <> 0). { intros E0. unfold egld_worth in He. rewrite Ex, E0 in He. by cbv in He. }
    rewrite (N.mul_comm (ls_supply w)), N.div_mul in V2 by done. lia. }
  pose (a := unstake_queue w1 + ONE_EGLD + virtual_reserve w1).
  assert (Ha : 0 < ls_worth w1 a).
  { unfold ls_worth. destruct (virtual_reserve w1 =? 0) eqn:B; [unfold a, ONE_EGLD; lia|].
    apply N.div_str_pos. split; [lia|]. assert (1 <= ls_supply w1) by lia.
    etrans; [|apply N.mul_le_mono_l; exact H]. unfold a. lia. }
  assert (Hcol : collect m w1 = collect m w).
  { unfold collect. rewrite R2. apply flat_map_ext. intros c. unfold live_of. by rewrite R9. }
  assert (exists pays, Forall (fun p => 0 < y_amt p /\ exists n r, y_tok p = TokUst n /\ release_epoch n w1 = Some r
             /\ r <= w_epoch w1 + c_unbond (w_cfg w)) pays
           /\ (forall n, pay_of_nonce n pays <= ust_of n u w1)
           /\ egld_sent u w1 + pay_total pays = egld_worth w x) as (pays & F1 & F2 & F3).
  { destruct HN as [HN|(n & r & N1 & N2 & N3 & N4)].
    - exists []. split; [constructor|]. split; [intros n; cbn; lia|]. cbn. rewrite <- P1. unfold paid_out, ust_balance.
      destruct HN as (_ & -> & _). lia.
    - exists [Pay (TokUst n) r]. split; [|split].
      + repeat constructor; [done|]. exists n, (w_epoch w + c_unbond (w_cfg w)). split_and!; [done|done|]. rewrite R5. lia.
      + intros k. unfold pay_of_nonce. cbn. destruct (N.eqb_spec n k) as [<-|]; lia.
      + rewrite <- P1. unfold paid_out. pose proof (balance_up u n r w w1 N3 N4). unfold pay_total. cbn. lia. }
  exists a, pays.
  pose proof (exit_procedure w0 (os ++ [o]) m d a (c_unbond (w_cfg w)) u pays Hd Ho1) as HE. cbn zeta in HE.
  rewrite <- Ew1 in HE. rewrite Hcol in HE. destruct HE as [S2 E2].
  - destruct Hq. split; congruence.
  - unfold operator. rewrite R1, R6. done.
  - by rewrite R1.
  - done.
  - done.
  - unfold a. lia.
  - done.
  - by rewrite R5.
  - done.
  - done.
  - cbn [app statuses run]. fold o. fold w1. rewrite S1. split; [by constructor|]. 
    rewrite <- F3, <- E2. reflexivity.
Qed.
