(** L_Leave.v — everybody leaves together. *)
From Verif Require Import L_Exit L_Batch L_User L_Tok L_Settle.
From Verif Require Export L_Drain L_Pot.

(** After the release epochs have come and the operator has collected. *)
Lemma collected w0 os m e :
  Deployed w0 -> along orderly w0 os ->
  let w := run w0 os in
  quiet w -> operator m w -> w_epoch w + e < 2 ^ 64 ->
  let ops := OEpoch e :: collect m w in let v := run w ops in
  Forall (eq SOk) (statuses w ops) /\ Reachable v /\ w_cfg v = w_cfg w /\ w_epoch v = w_epoch w + e
  /\ w_attr v = w_attr w /\ w_ust v = w_ust w
  /\ virtual_reserve v = virtual_reserve w /\ ls_supply v = ls_supply w /\ unstake_queue v = unstake_queue w
  /\ pending_unstaking_total v = 0 /\ unbonding v = 0 /\ ust_of_users w <= total_withdrawn v + unstake_queue v.
Proof.
  intros Hd Ho w Hq Hop He. cbn zeta.
  assert (Hr : Reachable w) by (apply reach_run_, deployed_reach, Hd).
  change (2 ^ 64) with U64 in He.
  assert (S0 : step w (OEpoch e) = (set_epoch (w_epoch w + e) (set_log [] w), SOk)).
  { unfold step. cbn [w_epoch set_log]. by replace (w_epoch w + e <? U64) with true by lia. }
  cbn [statuses run]. rewrite S0. cbn [fst snd].
  set (w1 := set_epoch (w_epoch w + e) (set_log [] w)).
  assert (Hr1 : Reachable w1) by (pose proof (reach_step w (OEpoch e) Hr) as K; rewrite S0 in K; exact K).
  destruct (list_views w1 Hr1) as (Hnd & _ & _ & Hlr).
  destruct (collect_list (w_dl w1) m (fun c => snd (live_of w c)) w1 Hnd Hr1 Hq Hop) as (S2 & K2 & P2).
  { intros c Hc1. split; [done|]. destruct (Hlr c Hc1) as [p Hp]. exists p. split; [done|].
    destruct (quiet_books w0 os c p Hd Ho Hq Hp) as (_ & _ & E). fold w in E. change (live_of w1 c) with (live_of w c). by rewrite E. }
  change (flat_map (fun c => collect1 m c (snd (live_of w c))) (w_dl w1)) with (collect m w) in *.
  set (w2 := run w1 (collect m w)) in *.
  assert (Hr2 : Reachable w2) by (by apply reach_run_).
  destruct K2 as (C1 & C2 & C3 & C4 & C5 & C6 & (C7 & C8 & C9 & C10) & C11 & C12).
  assert (Hpv : forall c p, w_pv w2 !! c = Some p -> p_pun p = 0 /\ p_unstaked p = 0).
  { intros c p Hp. rewrite P2 in Hp. change (w_pv w1) with (w_pv w) in Hp.
    destruct (w_pv w !! c) as [q|] eqn:Eq; [|done]. destruct (quiet_books w0 os c q Hd Ho Hq Eq) as (_ & E1 & _).
    case_bool_decide as Hin; injection Hp as <-; [done|]. split; [done|]. cbn.
    pose proof (l_unlisted _ _ _ _ (lists w Hr) c q Eq Hin) as Hfr. by apply Hfr. }
  assert (Z1 : pending_unstaking_total w2 = 0).
  { unfold pending_unstaking_total. apply gsum_zeros. intros c p Hp. by apply (Hpv c). }
  assert (Z2 : unbonding w2 = 0).
  { rewrite (unbonding_is_sum w2 Hr2). unfold unstaked_total. apply gsum_zeros. intros c p Hp. by apply (Hpv c). }
  assert (Z3 : ust_of_users w2 = ust_of_users w) by (unfold ust_of_users; by rewrite C8).
  pose proof Hr2 as Hh. apply reach_history in Hh as (v0 & vs & V0 & Ev).
  pose proof (ust_backing v0 vs V0) as H. cbv zeta in H. rewrite <- Ev in H.
  split_and!; try done; try (constructor; done); try (unfold virtual_reserve, ls_supply, unstake_queue; by rewrite C12). lia.
Qed.

Lemma claims_later w v l e :
  w_attr v = w_attr w -> w_epoch v = e ->
  Forall (fun x => fst x <> SELF /\ all_due w e (snd x)) l -> Forall (fun x : addr * list pay => fst x <> SELF /\ all_due v (w_epoch v) (snd x)) l.
Proof.
  intros Ha He HF. eapply List.Forall_impl; [|exact HF]. intros [u q] [Hu Hq]. split; [done|].
  unfold all_due, release_epoch in *. rewrite Ha, He. done.
Qed.

(** Nothing is left in the pipeline: all users can withdraw whatever is due. *)
Lemma drained_cash_out l w :
  Reachable w -> unstake_queue w = 0 -> pending_unstaking_total w = 0 -> unbonding w = 0 ->
  c_lstok (w_cfg w) = TIssued -> c_active (w_cfg w) = true -> c_usttok (w_cfg w) = TIssued ->
  Forall (fun x => fst x <> SELF /\ all_due w (w_epoch w) (snd x)) l ->
  (forall n u, brought n u l <= ust_of n u w) ->
  Forall (eq SOk) (statuses w (cash_out l)) /\ payments w l = map (fun x => pay_total (snd x)) l.
Proof.
  revert w. induction l as [|[u pays] l IH]; intros w Hr Q1 Q2 Q3 H1 H2 H3 HF Hb; [split; constructor|].
  apply Forall_cons_1 in HF as [[Hu Hd] HF]. cbn [fst snd] in Hu, Hd.
  assert (Hh : forall n v, brought n v ((u, pays) :: l) = (if u =? v then pay_of_nonce n pays else 0) + brought n v l) by done.
  destruct (drained_withdraw w u pays) as [A B]; try done.
  { intros n. specialize (Hb n u). rewrite Hh, N.eqb_refl in Hb. lia. }
  assert (Hp : pay_total pays <= total_withdrawn w).
  { destruct (withdraw_effects w u 0 pays A) as (E & _). rewrite B in E. lia. }
  destruct (withdraw_frame w u pays A Hp) as (F1 & F2 & F3 & _ & _ & _ & _ & F6 & _ & _ & _ & _ & _ & F4 & _ & F5).
  destruct (IH (fst (step w (OTx u 0 pays Withdraw)))) as [D1 D2].
  - by apply reach_step.
  - unfold unstake_queue in *. by rewrite F4.
  - unfold pending_unstaking_total in *. by rewrite F6.
  - unfold unbonding in *. by rewrite F4.
  - by rewrite F1.
  - by rewrite F1.
  - by rewrite F1.
  - eapply (claims_later w); [done|reflexivity|]. rewrite F2. done.
  - intros n v. specialize (Hb n v). specialize (F5 n v). rewrite Hh in Hb. rewrite (N.eqb_sym u v) in Hb. lia.
  - cbn [cash_out map statuses payments snd fst]. split; [constructor; [by rewrite A|exact D1]|].
    rewrite B. f_equal. exact D2.
Qed.

(** With a deposit that covers the queue. *)
Lemma all_leave w0 os m d a e l :
  Deployed w0 -> along orderly w0 os ->
  let w := run w0 os in
  quiet w -> operator m w -> c_usttok (w_cfg w) = TIssued -> d <> SELF ->
  unstake_queue w + ONE_EGLD <= a -> 0 < ls_worth w a -> w_epoch w + e < 2 ^ 64 ->
  Forall (fun x => fst x <> SELF /\ all_due w (w_epoch w + e) (snd x)) l ->
  (forall n u, brought n u l <= ust_of n u w) ->
  let first := OEpoch e :: collect m w ++ [OTx d a [] Delegate] in
  Forall (eq SOk) (statuses w (first ++ cash_out l))
  /\ payments (run w first) l = map (fun x => pay_total (snd x)) l.
Proof.
  intros Hd Ho w Hq Hop Hut Hdd Ha Hls He HF Hb first.
  destruct (collected w0 os m e Hd Ho Hq Hop He) as (S1 & Hr2 & C1 & C4 & C9 & C8 & V1 & V2 & V3 & Z1 & Z2 & _). fold w in S1, Hr2, C1, C4, C9, C8, V1, V2, V3, Z1, Z2.
  set (w2 := run w (OEpoch e :: collect m w)) in *.
  assert (Hw2 : ls_worth w2 a = ls_worth w a) by (unfold ls_worth; by rewrite V1, V2).
  destruct Hop as (Hm & Hm2 & Hlt & Hact).
  pose proof (delegate_worth w2 d a) as HD. cbn zeta in HD.
  destruct HD as (S3 & _ & _ & _ & _ & _ & _ & U3 & R3 & T3 & _);
    [by rewrite C1|by rewrite C1|done|lia|by rewrite Hw2|].
  destruct (delegate_split w2 d a [] S3) as (i & r & I1 & I2 & I3 & I4 & _ & _ & I5).
  change MIN_EGLD with ONE_EGLD in I5. specialize (I5 (unstake_queue w2) (a - unstake_queue w2) ltac:(lia) ltac:(lia) ltac:(lia) ltac:(lia)).
  set (w3 := fst (step w2 (OTx d a [] Delegate))) in *.
  assert (Hr3 : Reachable w3) by (by constructor).
  destruct R3 as (R31 & R32 & R33 & R34 & R35 & R36 & R37 & R38 & R39). destruct T3 as (T31 & T32 & T33 & T34).
  assert (E3 : run w first = w3).
  { unfold first. rewrite app_comm_cons, run_app. done. }
  destruct (drained_cash_out l w3) as [D1 D2]; try done.
  - lia.
  - unfold pending_unstaking_total in *. by rewrite R34.
  - lia.
  - by rewrite R31, C1.
  - by rewrite R31, C1.
  - by rewrite R31, C1.
  - eapply (claims_later w); [congruence|reflexivity|]. rewrite R35, C4. exact HF.
  - intros n u. unfold ust_of. rewrite T32, C8. apply Hb.
  - rewrite statuses_app, E3. split; [|exact D2]. apply list.Forall_app. split; [|exact D1].
    unfold first. rewrite app_comm_cons, statuses_app. apply list.Forall_app. split; [exact S1|]. fold w2. cbn [statuses].
    rewrite S3. repeat constructor.
Qed.

(** Without a deposit. *)
Lemma all_leave_without_deposit w0 os m sc :
  Deployed w0 -> along orderly w0 os ->
  let w := run w0 os in
  quiet w -> operator m w -> c_usttok (w_cfg w) = TIssued ->
  c_score (w_cfg w) = Some sc -> distinct_bounds sc -> N.of_nat (length (w_ul w)) < 2 ^ 32 ->
  c_maxsel (w_cfg w) < 2 ^ 64 -> c_maxsel (w_cfg w) mod 2 ^ 32 <> 0 ->
  (forall c p, w_pv w !! c = Some p -> net_zero_or_one p) ->
  exists ops, let v := run w ops in
    Forall (drains m) ops /\ Forall (eq SOk) (statuses w ops)
    /\ (unstake_queue v < 2 * ONE_EGLD \/ no_stake_left v)
    /\ forall e l,
       w_epoch w + e < 2 ^ 64 ->
       Forall (fun x => fst x <> SELF /\ all_due w (w_epoch w + e) (snd x)) l ->
       (forall n u, brought n u l <= ust_of n u w) ->
       claims_total l + unstake_queue v <= ust_of_users w ->
       let first := OEpoch e :: collect m v in
       Forall (eq SOk) (statuses v (first ++ cash_out l))
       /\ payments (run v first) l = map (fun x => pay_total (snd x)) l.
Proof.
  intros Hd Ho w Hq Hop Hut Hsc Hdb Hlen Hm1 Hm2 Hnet.
  destruct (queue_drains w0 os m sc Hd Ho Hq Hop Hsc Hdb Hlen Hm1 Hm2 Hnet) as (ops & D1 & D2 & D3 & D4 & D5).
  fold w in D2, D3, D4, D5. exists ops. cbv zeta. split_and!; [done..|].
  intros e l He HF Hb Hall.
  assert (Hr : Reachable w) by (apply reach_run_, deployed_reach, Hd).
  pose proof (drains_still m SManagers w ops I D1) as G3. pose proof (drains_still m Owner w ops I D1) as G4.
  pose proof (drains_still m SActive w ops I D1) as G5. pose proof (drains_still m Epoch w ops I D1) as G6.
  pose proof (drains_still m TokenBook w ops I D1) as G7. cbn [same] in G3, G4, G5, G6, G7. destruct G7 as (_ & G7 & _).
  pose proof (drains_ust m w ops D1) as G8.
  destruct (tokens_final w ops Hr) as [T1 T2].
  assert (Hop' : operator m (run w ops)).
  { destruct Hop as (O1 & O2 & O3 & O4). split_and!; [done|by rewrite G3, G4|by apply T1|congruence]. }
  pose proof (collected w0 (os ++ ops) m e Hd (along_app _ w0 os ops Ho D3)) as X.
  rewrite run_app in X. fold w in X. cbv zeta in X. rewrite G6 in X.
  destruct (X D4 Hop' He) as (S1 & Hr2 & C1 & C4 & C9 & C8 & _ & _ & V3 & _ & _ & Z).
  set (v := run w ops) in *. set (w2 := run v (OEpoch e :: collect m v)) in *.
  destruct (cash_out_all l w2) as [A B].
  - done.
  - rewrite C1. apply T1, Hop.
  - rewrite C1, G5. apply Hop.
  - rewrite C1. by apply T2.
  - eapply (claims_later w); [congruence|reflexivity|]. rewrite C4. exact HF.
  - intros n u. unfold ust_of. rewrite C8, G8. apply Hb.
  - unfold ust_of_users in *. rewrite G8 in Z. lia.
  - rewrite statuses_app. split; [|exact B]. by apply list.Forall_app.
Qed.

Lemma all_leave_anywhere w0 os outs m d a e l :
  Deployed w0 -> along orderly w0 os ->
  let w := run w0 os in let v := run w (settle w outs) in
  c_fees (w_cfg w) <= 10000 -> Forall no_whitelisting (unanswered w) ->
  length outs = length (w_calls w) -> Forall (eq SOk) (statuses w (map (OExec 0) outs)) ->
  operator m w -> c_usttok (w_cfg w) = TIssued -> d <> SELF ->
  unstake_queue v + ONE_EGLD <= a -> 0 < ls_worth v a -> w_epoch w + e < 2 ^ 64 ->
  Forall (fun x => fst x <> SELF /\ all_due w (w_epoch w + e) (snd x)) l ->
  (forall n u, brought n u l <= ust_of n u w) ->
  let first := settle w outs ++ OEpoch e :: collect m v ++ [OTx d a [] Delegate] in
  Forall (eq SOk) (statuses w (first ++ cash_out l))
  /\ payments (run w first) l = map (fun x => pay_total (snd x)) l.
Proof.
  intros Hd Ha w v Hf Hq Hl Hs Hop Hut Hdd Hqa Hwa He Hp Hb first.
  destruct (settles w0 os outs Hd Ha Hf Hq Hl Hs) as (S1 & S2 & S3). fold w in S1, S2, S3.
  assert (Hr : Reachable w) by (apply reach_run_; by apply deployed_reach).
  destruct (tokens_final w (settle w outs) Hr) as [T1 T2]. fold v in T1, T2.
  assert (Ev : v = run w0 (os ++ settle w outs)) by (rewrite run_app; done).
  assert (Ho : along orderly w0 (os ++ settle w outs)) by (by apply along_app).
  pose proof (calm_kept SManagers w outs I) as F1. pose proof (calm_kept SActive w outs I) as F2.
  pose proof (calm_kept Owner w outs I) as F3. pose proof (calm_kept Epoch w outs I) as F4.
  pose proof (calm_kept TokenBook w outs I) as F5.
  assert (F6 : forall n u, ust_of n u v = ust_of n u w) by (intros n u; exact (calm_kept (UstOf n u) w outs I)).
  cbn [same] in F1, F2, F3, F4, F5. fold v in F1, F2, F3, F4, F5, S3. destruct F5 as (_ & F5 & _).
  assert (Hop' : operator m v).
  { destruct Hop as (O1 & O2 & O3 & O4). split_and!; [done| |by apply T1|congruence]. by rewrite F1, F3. }
  pose proof (all_leave w0 (os ++ settle w outs) m d a e l Hd Ho) as X. cbv zeta in X.
  rewrite <- Ev in X. unfold first. rewrite <- app_assoc, statuses_app, run_app. fold v.
  destruct X as [X1 X2]; try done.
  - by apply T2.
  - by rewrite F4.
  - unfold all_due, release_epoch. rewrite F5, F4. exact Hp.
  - intros n u. rewrite F6. apply Hb.
  - split; [by apply Forall_app|exact X2].
Qed.
