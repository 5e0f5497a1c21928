(** L_Pot.v — the pot lasts, and withdrawals do not get in each other's way. *)
From Verif Require Import L_User L_Tok L_Acct L_Exit L_Wd.
From Verif Require Export Spec10 L_Frame L_Settle.

Definition is_wd (o : op) (s : status) : bool := match o, s with OTx _ _ _ Withdraw, SOk => true | _, _ => false end.

Lemma pot_did w o w' s : is_wd o s = false -> did w o w' s -> total_withdrawn w <= total_withdrawn w'.
Proof.
  unfold total_withdrawn. intros Hw D. destruct D; try discriminate Hw; subst_pools; try (cbn; lia);
    try (match goal with H : exec_call _ _ _ = _ |- _ => apply exec_call_frame in H as [l ->] end; cbn; lia).
Qed.

Lemma pot_step w o : total_withdrawn w <= total_withdrawn (fst (step w o)) + withdrawal w o (snd (step w o)) (fst (step w o)).
Proof.
  destruct (is_wd o (snd (step w o))) eqn:E.
  - destruct o as [u a l ep| | | | | | | | |]; try discriminate E. destruct ep; try discriminate E.
    destruct (snd (step w (OTx u a l Withdraw))) eqn:Hs; try discriminate E.
    cbn [withdrawal]. destruct (withdraw_effects w u a l Hs) as (_ & H & _). lia.
  - pose proof (pot_did _ _ _ _ E (step_did w o)) as H. change (total_withdrawn (set_log [] w)) with (total_withdrawn w) in H. lia.
Qed.

Lemma pot_lasts w os : total_withdrawn w <= total_withdrawn (run w os) + tally withdrawal w os.
Proof.
  revert w. induction os as [|o os IH]; intros w; cbn [run tally]; [lia|].
  pose proof (pot_step w o). pose proof (IH (fst (step w o))). lia.
Qed.

Lemma epoch_step w o : w_epoch w <= w_epoch (fst (step w o)).
Proof.
  destruct (may_change w o Epoch) eqn:E.
  - destruct o as [u a l ep|i out|i|k| | | | | |]; try discriminate E.
    + by destruct ep.
    + cbn in E. destruct (nth_error _ _) as [[k r]|]; [|done]. by destruct k as [| | | | |[]], r.
    + unfold step. cbn. destruct (_ <? _); cbn; lia.
  - pose proof (frame_step w o Epoch E) as F. cbn [same] in F. lia.
Qed.

Lemma epoch_run w os : w_epoch w <= w_epoch (run w os).
Proof.
  revert w. induction os as [|o os IH]; intros w; cbn [run]; [lia|]. pose proof (epoch_step w o). pose proof (IH (fst (step w o))). lia.
Qed.

Lemma bystander_run w os u :
  u <> SELF -> Forall (fun o => initiator o <> Some u) os -> forall n, ust_of n u w <= ust_of n u (run w os).
Proof.
  intros Hu HF. revert w. induction HF as [|o os Ho _ IH]; intros w n; cbn [run]; [lia|].
  destruct (bystander w o u Hu Ho) as [_ H]. specialize (H n). specialize (IH (fst (step w o)) n). lia.
Qed.

Lemma due_matured w e pays : all_due w e pays -> e <= w_epoch w -> Forall (matured w) pays.
Proof.
  intros HF He. eapply List.Forall_impl; [|exact HF]. intros [t a] (Ha & n & r & Ht & Hn & Hle). unfold release_epoch in Hn.
  destruct (w_attr w !! n) as [[e' r']|] eqn:E; [|done]. injection Hn as ->. exists n, e', r. split_and!; try done. lia.
Qed.

Lemma due_run w os e pays : Reachable w -> all_due w e pays -> all_due (run w os) e pays.
Proof.
  intros Hr HF. eapply List.Forall_impl; [|exact HF]. cbn. intros p (Ha & n & r & Ht & Hn & Hle). split; [done|].
  exists n, r. split_and!; try done. by apply release_fixed.
Qed.

(** A withdrawal for which the pot suffices. *)
Lemma withdraw_in_full w u pays :
  Reachable w -> u <> SELF -> c_lstok (w_cfg w) = TIssued -> c_active (w_cfg w) = true -> c_usttok (w_cfg w) = TIssued ->
  all_due w (w_epoch w) pays -> (forall n, pay_of_nonce n pays <= ust_of n u w) -> pay_total pays <= total_withdrawn w ->
  let w' := fst (step w (OTx u 0 pays Withdraw)) in
  snd (step w (OTx u 0 pays Withdraw)) = SOk /\ egld_sent u w' = pay_total pays
  /\ total_withdrawn w' + pay_total pays = total_withdrawn w.
Proof.
  intros Hr Hu H1 H2 H3 HF Hb Hp w'.
  assert (HS : snd (step w (OTx u 0 pays Withdraw)) = SOk).
  { apply withdraw_available; try done. apply (due_matured w (w_epoch w)); [done|lia]. }
  split; [done|]. destruct (withdraw_effects w u 0 pays HS) as (E1 & E2 & _). fold w' in E1, E2. lia.
Qed.

Lemma counts_on w os u e pays :
  Reachable w -> u <> SELF -> Forall (fun o => initiator o <> Some u) os ->
  c_lstok (w_cfg w) = TIssued -> c_usttok (w_cfg w) = TIssued ->
  all_due w e pays -> (forall n, pay_of_nonce n pays <= ust_of n u w) ->
  pay_total pays + tally withdrawal w os <= total_withdrawn w ->
  let v := run w os in
  c_active (w_cfg v) = true -> e <= w_epoch v ->
  snd (step v (OTx u 0 pays Withdraw)) = SOk /\ egld_sent u (fst (step v (OTx u 0 pays Withdraw))) = pay_total pays.
Proof.
  intros Hr Hu HI H1 H2 HF Hb Hp v Hact He. destruct (tokens_final w os Hr) as [T1 T2].
  destruct (withdraw_in_full v u pays) as (A & B & _); try done.
  - by apply reach_run_.
  - by apply T1.
  - by apply T2.
  - eapply List.Forall_impl; [|exact (due_run w os e pays Hr HF)]. cbn. intros p (Ha & n & r & Ht & Hn & Hle). split; [done|].
    exists n, r. split_and!; try done. fold v. lia.
  - intros n. pose proof (bystander_run w os u Hu HI n). specialize (Hb n). fold v in H. lia.
  - pose proof (pot_lasts w os). fold v in H. lia.
Qed.

(** Two withdrawals. *)
Lemma withdraw_frame w u pays :
  snd (step w (OTx u 0 pays Withdraw)) = SOk -> pay_total pays <= total_withdrawn w ->
  let w' := fst (step w (OTx u 0 pays Withdraw)) in
  w_cfg w' = w_cfg w /\ w_epoch w' = w_epoch w /\ w_attr w' = w_attr w /\ w_un w' = w_un w /\ w_last w' = w_last w
  /\ w_dl w' = w_dl w /\ w_ul w' = w_ul w /\ w_pv w' = w_pv w /\ w_owner w' = w_owner w /\ w_calls w' = w_calls w
  /\ w_res w' = w_res w /\ w_live w' = w_live w /\ w_ls w' = w_ls w
  /\ w_pool w' = set_withdrawn (total_withdrawn w - pay_total pays) (w_pool w)
  /\ contract_egld w' + pay_total pays = contract_egld w
  /\ (forall n v, ust_of n v w' + (if v =? u then pay_of_nonce n pays else 0) = ust_of n v w).
Proof.
  intros HS Hp w'. destruct (withdraw_tokens w u 0 pays HS) as [T1 T2].
  destruct (withdraw_effects w u 0 pays HS) as (E1 & E2 & E3 & _ & E5 & _ & E7 & E8 & E9 & E10 & E11 & (R1 & R2 & R3 & R4 & R5 & R6 & R7 & R8 & R9) & _).
  fold w' in T2, E1, E2, E3, E5, E7, E8, E9, E10, E11, R1, R2, R3, R4, R5, R6, R7, R8, R9. replace (egld_sent u w') with (pay_total pays) in E3, E7 by lia. split_and!; try done; [lia|].
  intros n v. destruct (N.eqb_spec v u) as [->|Hv]; [|rewrite E5 by done; lia].
  specialize (T2 n). replace (pay_total pays - total_withdrawn w) with 0 in T2 by lia.
  destruct (list.last pays) as [[[|k|] ?]|]; try (destruct (k =? n)); lia.
Qed.

Lemma withdrawals_commute w u v pu pv :
  let a := OTx u 0 pu Withdraw in let b := OTx v 0 pv Withdraw in
  Reachable w -> u <> v -> snd (step w a) = SOk -> snd (step w b) = SOk ->
  pay_total pu + pay_total pv <= total_withdrawn w ->
  statuses w [a; b] = [SOk; SOk] /\ statuses w [b; a] = [SOk; SOk]
  /\ egld_sent v (run w [a; b]) = pay_total pv /\ egld_sent u (run w [b; a]) = pay_total pu
  /\ forall p, same p (run w [a; b]) (run w [b; a]).
Proof.
  assert (K : forall w u v pu pv, Reachable w -> u <> v -> snd (step w (OTx u 0 pu Withdraw)) = SOk ->
    snd (step w (OTx v 0 pv Withdraw)) = SOk -> pay_total pu + pay_total pv <= total_withdrawn w ->
    let w1 := fst (step w (OTx u 0 pu Withdraw)) in
    snd (step w1 (OTx v 0 pv Withdraw)) = SOk
    /\ egld_sent v (fst (step w1 (OTx v 0 pv Withdraw))) = pay_total pv /\ pay_total pv <= total_withdrawn w1).
  { clear. intros w u v pu pv Hr Huv Ha Hb Hp w1.
    destruct (withdraw_frame w u pu Ha ltac:(lia)) as (F1 & F2 & F3 & _ & _ & _ & _ & _ & _ & _ & _ & _ & _ & F4 & _ & F5).
    fold w1 in F1, F2, F3, F4, F5.
    destruct (withdraw_done w v 0 pv Hb) as (U' & D1 & _ & D2 & D3 & D4 & D5 & _).
    assert (Hw : total_withdrawn w1 + pay_total pu = total_withdrawn w) by (unfold total_withdrawn in *; rewrite F4; cbn; lia).
    destruct (withdraw_effects w v 0 pv Hb) as (_ & _ & _ & _ & _ & _ & _ & _ & _ & _ & _ & _ & DU & _).
    destruct (withdraw_tokens w v 0 pv Hb) as [T1 _].
    destruct (withdraw_in_full w1 v pv) as (A & B & _).
    - by apply reach_step.
    - done.
    - congruence.
    - congruence.
    - congruence.
    - eapply List.Forall_impl; [|exact DU]. cbn. intros q (Hq & n & r & E1 & E2 & E3). split; [done|]. exists n, r.
      unfold release_epoch in *. rewrite F3, F2. done.
    - intros n. specialize (F5 n v). rewrite (proj2 (N.eqb_neq v u)) in F5 by congruence. specialize (T1 n). lia.
    - lia.
    - split_and!; try done. lia. }
  intros a b Hr Huv Ha Hb Hp. subst a b.
  destruct (K w u v pu pv Hr Huv Ha Hb Hp) as (A1 & A2 & A3).
  destruct (K w v u pv pu Hr (not_eq_sym Huv) Hb Ha ltac:(lia)) as (B1 & B2 & B3).
  cbn [statuses run]. rewrite Ha, Hb, A1, B1. split_and!; try done.
  destruct (withdraw_frame w u pu Ha ltac:(lia)) as (F1 & F2 & F3 & F4 & F5 & F6 & F7 & F8 & F9 & F10 & F11 & F12 & F13 & F14 & F15 & F16).
  destruct (withdraw_frame w v pv Hb ltac:(lia)) as (G1 & G2 & G3 & G4 & G5 & G6 & G7 & G8 & G9 & G10 & G11 & G12 & G13 & G14 & G15 & G16).
  destruct (withdraw_frame _ v pv A1 A3) as (H1 & H2 & H3 & H4 & H5 & H6 & H7 & H8 & H9 & H10 & H11 & H12 & H13 & H14 & H15 & H16).
  destruct (withdraw_frame _ u pu B1 B3) as (I1 & I2 & I3 & I4 & I5 & I6 & I7 & I8 & I9 & I10 & I11 & I12 & I13 & I14 & I15 & I16).
  set (a := OTx u 0 pu Withdraw) in *. set (b := OTx v 0 pv Withdraw) in *.
  assert (HP : w_pool (fst (step (fst (step w b)) a)) = w_pool (fst (step (fst (step w a)) b))).
  { rewrite I14, H14. unfold total_withdrawn. rewrite G14, F14. destruct (w_pool w). unfold set_withdrawn, total_withdrawn in *. cbn in *. f_equal. lia. }
  assert (HV : w_pv (fst (step (fst (step w b)) a)) = w_pv (fst (step (fst (step w a)) b))) by congruence.
  assert (HC : w_cfg (fst (step (fst (step w b)) a)) = w_cfg (fst (step (fst (step w a)) b))) by congruence.
  clear K. intros p. destruct p; unfold same; cbv zeta;
    unfold ls_supply, virtual_reserve, fees_reserve, total_withdrawn, pending_egld, unstake_queue, unbonding, ls_balance, live_of;
    rewrite ?HP, ?HV, ?HC; try done; try congruence.
  - lia.
  - specialize (F16 n u0). specialize (G16 n u0). specialize (H16 n u0). specialize (I16 n u0). lia.
  - split_and!; congruence.
Qed.

(** A list of withdrawals. *)
Lemma cash_out_all l w :
  Reachable w -> c_lstok (w_cfg w) = TIssued -> c_active (w_cfg w) = true -> c_usttok (w_cfg w) = TIssued ->
  Forall (fun x => fst x <> SELF /\ all_due w (w_epoch w) (snd x)) l ->
  (forall n u, brought n u l <= ust_of n u w) -> claims_total l <= total_withdrawn w ->
  Forall (eq SOk) (statuses w (cash_out l)) /\ payments w l = map (fun x => pay_total (snd x)) l.
Proof.
  revert w. induction l as [|[u pays] l IH]; intros w Hr H1 H2 H3 HF Hb Hp; [split; constructor|].
  apply Forall_cons_1 in HF as [[Hu Hd] HF]. cbn [fst snd] in Hu, Hd.
  change (pay_total pays + claims_total l <= total_withdrawn w) in Hp.
  assert (Hh : forall n v, brought n v ((u, pays) :: l) = (if u =? v then pay_of_nonce n pays else 0) + brought n v l) by done.
  destruct (withdraw_in_full w u pays) as (A & B & C); try done.
  { intros n. specialize (Hb n u). rewrite Hh, N.eqb_refl in Hb. lia. } { lia. }
  destruct (withdraw_frame w u pays A ltac:(lia)) as (F1 & F2 & F3 & _ & _ & _ & _ & _ & _ & _ & _ & _ & _ & _ & _ & F5).
  destruct (IH (fst (step w (OTx u 0 pays Withdraw)))) as [D1 D2].
  - by apply reach_step.
  - by rewrite F1.
  - by rewrite F1.
  - by rewrite F1.
  - eapply List.Forall_impl; [|exact HF]. intros [v q] [Hv Hq]. split; [done|]. unfold all_due, release_epoch in *. rewrite F2, F3. done.
  - intros n v. specialize (Hb n v). specialize (F5 n v). rewrite Hh in Hb. rewrite (N.eqb_sym u v) in Hb. lia.
  - lia.
  - cbn [cash_out map statuses payments snd fst]. split; [constructor; [by rewrite A|exact D1]|].
    rewrite B. f_equal. exact D2.
Qed.
