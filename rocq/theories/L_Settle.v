(** L_Settle.v — whatever is under way comes to an end, and the exit works from there. *)
From Verif Require Import L_Order L_Exit L_Batch.
From Verif Require Export L_Frame.

Lemma same_trans p a b c : same p a b -> same p b c -> same p a c.
Proof. destruct p; cbn; intros; try congruence; intuition congruence. Qed.

Lemma same_refl p w : same p w w.
Proof. destruct p; cbn; done. Qed.

Lemma frame_along p w os : along (fun w o => may_change w o p = false) w os -> same p w (run w os).
Proof.
  revert w. induction os as [|o os IH]; intros w H; [apply same_refl|]. destruct H as [H1 H2]. cbn [run].
  eapply same_trans; [exact (frame_step _ _ _ H1)|exact (IH _ H2)].
Qed.

Lemma exec_first w out k l :
  w_calls w = k :: l -> snd (step w (OExec 0 out)) = SOk ->
  exists r, w_calls (fst (step w (OExec 0 out))) = l /\ w_res (fst (step w (OExec 0 out))) = w_res w ++ [(k, r)].
Proof.
  intros Hc Hs. unfold step in *. cbn [w_calls set_log] in *. rewrite Hc in *. cbn [nth_error] in *.
  destruct (exec_call k out (set_log [] w)) as [[r w1]|] eqn:E; [|discriminate Hs].
  apply exec_call_frame in E as [lv ->]. exists r. cbn. by rewrite Hc.
Qed.

Lemma deliver_first w k r l :
  w_res w = (k, r) :: l -> ~ cb_failed (snd (step w (OCb 0))) ->
  snd (step w (OCb 0)) = SOk /\ w_res (fst (step w (OCb 0))) = l.
Proof.
  intros Hc Hs. pose proof (step_did w (OCb 0)) as D.
  assert (Hn : nth_error (w_res w) 0 = Some (k, r)) by (by rewrite Hc).
  assert (Ho : snd (step w (OCb 0)) = SOk).
  { unfold step in *. cbn [w_res set_log] in *. rewrite Hn in *.
    destruct (callback _ _ _); [done|]. cbn in Hs. tauto. }
  split; [done|]. rewrite Ho in D. clear Ho. remember (OCb 0) as o eqn:Eo. remember SOk as s eqn:Es.
  destruct D; try discriminate Eo; try discriminate Es; try (subst s; contradiction); injection Eo as ->; cbn; by rewrite Hc.
Qed.

Lemma exec_orderly w outs : along orderly w (map (OExec 0) outs).
Proof. revert w. induction outs as [|o l IH]; intros w; [done|]. cbn [map along]. split; [done|apply IH]. Qed.

Lemma exec_all w outs :
  length outs = length (w_calls w) -> Forall (eq SOk) (statuses w (map (OExec 0) outs)) ->
  let v := run w (map (OExec 0) outs) in
  w_calls v = [] /\ length (w_res v) = (length (w_res w) + length (w_calls w))%nat
  /\ map fst (w_res v) = map fst (w_res w) ++ w_calls w.
Proof.
  revert w. induction outs as [|o l IH]; intros w Hl Hs; cbv zeta.
  - cbn in *. destruct (w_calls w); [|done]. split_and!; [done|cbn; lia|by rewrite app_nil_r].
  - destruct (w_calls w) as [|k ks] eqn:Hc; [done|]. cbn [map statuses] in Hs. inversion Hs as [|? ? Hs1 Hs2]; subst.
    destruct (exec_first w o k ks Hc (eq_sym Hs1)) as (r & E1 & E2).
    destruct (IH (fst (step w (OExec 0 o)))) as (A & B & C); [rewrite E1; cbn in Hl; lia|done|].
    cbn [map run]. split_and!; [done| |].
    + rewrite B, E1, E2, app_length. cbn. lia.
    + rewrite C, E1, E2, map_app, <- app_assoc. done.
Qed.

Definition quiet_reply (x : call * reply) : Prop := no_whitelisting (fst x).

Lemma deliver_all n w :
  Reachable w -> InStep w -> c_fees (w_cfg w) <= 10000 -> length (w_res w) = n -> Forall quiet_reply (w_res w) ->
  Forall (eq SOk) (statuses w (repeat (OCb 0) n)) /\ along orderly w (repeat (OCb 0) n)
  /\ w_res (run w (repeat (OCb 0) n)) = [] /\ w_calls (run w (repeat (OCb 0) n)) = w_calls w.
Proof.
  revert w. induction n as [|n IH]; intros w Hr HI Hf Hl Hq.
  - destruct (w_res w) eqn:E; [|done]. cbn. split_and!; [constructor|done|done|done].
  - destruct (w_res w) as [|[k r] l] eqn:E; [done|]. inversion Hq as [|? ? Hq1 Hq2]; subst. cbn in Hq1.
    assert (Ho : orderly w (OCb 0)).
    { cbn. rewrite E. split; [intros j ? ? Hj; lia|]. destruct k; try done. }
    destruct (orderly_step w (OCb 0) Hr HI Ho) as [K1 K2].
    destruct (deliver_first w k r l E K1) as [K3 K4].
    assert (Hm : forall p, p <> Replies -> reply_changes k r p = false -> may_change w (OCb 0) p = false).
    { intros p Hp Hx. cbn. rewrite E. cbn. by destruct p. }
    pose proof (frame_step w (OCb 0) SFees (Hm SFees ltac:(done) ltac:(by destruct k as [| | | | |[]], r))) as F1. cbn [same] in F1.
    pose proof (frame_step w (OCb 0) Calls (Hm Calls ltac:(done) ltac:(by destruct k as [| | | | |[]], r))) as F2. cbn [same] in F2.
    destruct (IH (fst (step w (OCb 0)))) as (A & B & C & D).
    + by apply reach_step.
    + done.
    + by rewrite F1.
    + rewrite K4. cbn in Hl. lia.
    + by rewrite K4.
    + cbn [repeat statuses along run]. split_and!; [by constructor|done|done|done|congruence].
Qed.

Lemma settles w0 os outs :
  Deployed w0 -> along orderly w0 os ->
  let w := run w0 os in
  c_fees (w_cfg w) <= 10000 -> Forall no_whitelisting (unanswered w) ->
  length outs = length (w_calls w) -> Forall (eq SOk) (statuses w (map (OExec 0) outs)) ->
  Forall (eq SOk) (statuses w (settle w outs)) /\ along orderly w (settle w outs) /\ quiet (run w (settle w outs)).
Proof.
  intros Hd Ha w Hf Hq Hl Hs. pose proof (deployed_reach w0 Hd) as Hr0.
  destruct (orderly_run w0 os Hr0 (instep_deploy w0 Hd) Ha) as [_ HI].
  assert (Hr : Reachable w) by (by apply reach_run_).
  destruct (exec_all w outs Hl Hs) as (A & B & C). fold w in HI. clearbody w.
  destruct (orderly_run w _ Hr HI (exec_orderly w outs)) as [_ HI1].
  assert (F : same SFees w (run w (map (OExec 0) outs))).
  { apply frame_along. clear. revert w. induction outs as [|o l IH]; intros w; [done|]. cbn [map along]. split; [done|apply IH]. }
  cbn [same] in F. destruct (deliver_all (length (w_res w) + length (w_calls w)) (run w (map (OExec 0) outs))) as (D & G & H & I).
  - by apply reach_run_.
  - done.
  - by rewrite F.
  - done.
  - unfold unanswered in Hq. apply Forall_app in Hq as [H1 H2]. unfold quiet_reply.
    apply (List.Forall_map fst no_whitelisting). rewrite C. by apply Forall_app.
  - unfold settle. rewrite statuses_app, run_app. split_and!.
    + by apply Forall_app.
    + apply along_app; [apply exec_orderly|done].
    + split; [rewrite I; apply A|done].
Qed.

(** Refusals always settle everything. *)
Lemma refusals_ok w n : (n <= length (w_calls w))%nat -> Forall (eq SOk) (statuses w (map (OExec 0) (repeat None n))).
Proof.
  revert w. induction n as [|n IH]; intros w Hn; [constructor|]. destruct (w_calls w) as [|k ks] eqn:Hc; [cbn in Hn; lia|].
  cbn [repeat map statuses].
  assert (Hs : snd (step w (OExec 0 None)) = SOk) by (unfold step; cbn [w_calls set_log]; rewrite Hc; done).
  constructor; [done|]. apply IH. destruct (exec_first w None k ks Hc Hs) as (r & E1 & _). rewrite E1. cbn in Hn. lia.
Qed.

(** The exit of [L_Exit], from any point of an orderly history. *)
Definition calm (p : part) : Prop :=
  match p with
  | SManagers | SActive | Owner | Epoch | TokenBook | UstOf _ _ | SPeriod => True
  | _ => False
  end.

Lemma calm_kept p w outs : calm p -> same p w (run w (settle w outs)).
Proof.
  intros Hp. unfold settle. generalize (length (w_res w) + length (w_calls w))%nat. intros n. apply frame_along. apply along_app.
  - revert w. induction outs as [|o l IH]; intros w; [done|]. cbn [map along]. split; [by destruct p|apply IH].
  - generalize (run w (map (OExec 0) outs)). clear w outs. induction n as [|n IH]; intros w; [done|].
    cbn [repeat along]. split; [|apply IH]. cbn. destruct (w_res w) as [|[k r] l]; [done|].
    by destruct p; try contradiction; destruct k as [| | | | |[]], r.
Qed.

Lemma exit_anywhere w0 os outs m d a e u pays :
  Deployed w0 -> along orderly w0 os ->
  let w := run w0 os in let v := run w (settle w outs) in
  c_fees (w_cfg w) <= 10000 -> Forall no_whitelisting (unanswered w) ->
  length outs = length (w_calls w) -> Forall (eq SOk) (statuses w (map (OExec 0) outs)) ->
  operator m w -> c_usttok (w_cfg w) = TIssued -> d <> SELF -> u <> SELF ->
  unstake_queue v + ONE_EGLD <= a -> 0 < ls_worth v a -> w_epoch w + e < 2 ^ 64 ->
  Forall (fun p => 0 < y_amt p /\ exists n r, y_tok p = TokUst n /\ release_epoch n w = Some r /\ r <= w_epoch w + e) pays ->
  (forall n, pay_of_nonce n pays <= ust_of n u w) ->
  let ops := settle w outs ++ OEpoch e :: collect m v ++ [OTx d a [] Delegate; OTx u 0 pays Withdraw] in
  Forall (eq SOk) (statuses w ops) /\ egld_sent u (run w ops) = pay_total pays.
Proof.
  intros Hd Ha w v Hf Hq Hl Hs Hop Hut Hdd Hu Hqa Hwa He Hp Hb ops.
  destruct (settles w0 os outs Hd Ha Hf Hq Hl Hs) as (S1 & S2 & S3). fold w in S1, S2, S3.
  assert (Hr : Reachable w) by (apply reach_run_; by apply deployed_reach).
  destruct (tokens_final w (settle w outs) Hr) as [T1 T2]. fold v in T1, T2.
  assert (Ev : v = run w0 (os ++ settle w outs)) by (rewrite run_app; done).
  assert (Ho : along orderly w0 (os ++ settle w outs)) by (by apply along_app).
  pose proof (calm_kept SManagers w outs I) as F1. pose proof (calm_kept SActive w outs I) as F2.
  pose proof (calm_kept Owner w outs I) as F3. pose proof (calm_kept Epoch w outs I) as F4.
  pose proof (calm_kept TokenBook w outs I) as F5.
  assert (F6 : forall n, ust_of n u v = ust_of n u w) by (intros n; exact (calm_kept (UstOf n u) w outs I)).
  cbn [same] in F1, F2, F3, F4, F5. fold v in F1, F2, F3, F4, F5, S3. destruct F5 as (_ & F5 & _).
  assert (Hop' : operator m v).
  { destruct Hop as (O1 & O2 & O3 & O4). split_and!; [done| |by apply T1|congruence]. by rewrite F1, F3. }
  pose proof (exit_procedure w0 (os ++ settle w outs) m d a e u pays Hd Ho) as X. cbv zeta in X.
  rewrite <- Ev in X. unfold ops. rewrite statuses_app, run_app. fold v.
  destruct X as [X1 X2]; try done.
  - by apply T2.
  - by rewrite F4.
  - unfold release_epoch. rewrite F5, F4. exact Hp.
  - intros n. rewrite F6. apply Hb.
  - split; [by apply Forall_app|exact X2].
Qed.

Lemma refusals_settle w0 os :
  Deployed w0 -> along orderly w0 os ->
  let w := run w0 os in let outs := repeat None (length (w_calls w)) in
  c_fees (w_cfg w) <= 10000 -> Forall no_whitelisting (unanswered w) ->
  Forall (eq SOk) (statuses w (settle w outs)) /\ quiet (run w (settle w outs)).
Proof.
  intros Hd Ha w outs Hf Hq. destruct (settles w0 os outs Hd Ha Hf Hq) as (A & _ & C).
  - apply repeat_length.
  - by apply refusals_ok.
  - done.
Qed.

(** Deciding [no_whitelisting], for the cases. *)
Definition no_whitelisting_b (k : call) : bool := match k with KWhite _ _ _ => false | _ => true end.
Lemma no_whitelisting_all l : forallb no_whitelisting_b l = true -> Forall no_whitelisting l.
Proof.
  intros H. apply List.Forall_forall. intros k Hk. rewrite forallb_forall in H. specialize (H k Hk). by destruct k.
Qed.
