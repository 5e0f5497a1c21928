(** L_Lost.v — what aborted callbacks leave behind. *)
From Verif Require Export Spec5 L_Select L_Books.

Definition fl (f : call -> N) (w : world) : N := sumN (map f (unanswered w)).

Lemma fl_new f (w w' : world) ks :
  w_calls w' = w_calls w ++ ks -> w_res w' = w_res w -> fl f w' = sumN (map f ks) + fl f w.
Proof.
  intros E1 E2. unfold fl, unanswered. rewrite E1, E2, !map_app, !sumN_app. lia.
Qed.
Lemma fl_cb f (w w' : world) i k r :
  nth_error (w_res w) i = Some (k, r) -> w_calls w' = w_calls w -> w_res w' = drop_nth i (w_res w) ->
  fl f w = f k + fl f w'.
Proof.
  intros H E1 E2. unfold fl, unanswered. rewrite E1, E2, !map_app, !sumN_app, !map_map.
  pose proof (sumN_drop_nth (fun x => f (fst x)) i (w_res w) (k, r) H). cbn in *. lia.
Qed.
Lemma fl_exec f (w w' : world) i k r :
  nth_error (w_calls w) i = Some k -> w_calls w' = drop_nth i (w_calls w) -> w_res w' = w_res w ++ [(k, r)] ->
  fl f w' = fl f w.
Proof.
  intros H E1 E2. unfold fl, unanswered. rewrite E1, E2, !map_app, !sumN_app.
  pose proof (sumN_drop_nth f i (w_calls w) k H). cbn in *. lia.
Qed.

Lemma rec_upd pv c0 p p' c : pv !! c0 = Some p ->
  p_pst (recp (<[c0 := p']> pv) c) + (if c0 =? c then p_pst p else 0) = p_pst (recp pv c) + (if c0 =? c then p_pst p' else 0)
  /\ p_pun (recp (<[c0 := p']> pv) c) + (if c0 =? c then p_pun p else 0) = p_pun (recp pv c) + (if c0 =? c then p_pun p' else 0).
Proof.
  intros H. unfold recp. destruct (N.eqb_spec c0 c) as [<-|Hn].
  - rewrite lookup_insert, H. cbn. change (id p') with p'. change (id p) with p. lia.
  - rewrite lookup_insert_ne by done. lia.
Qed.

Ltac hide :=
  match goal with |- _ = _ + fl (deleg_amt ?c) ?w' + _ /\ _ = _ + fl _ _ + _ =>
    generalize dependent (fl (deleg_amt c) w'); intros ? ?;
    generalize dependent (fl (undel_amt c) w'); intros ? ? end.
Ltac newc ks :=
  match goal with |- _ = _ + fl (deleg_amt ?c) ?w' + _ /\ _ = _ + fl _ _ + _ =>
    match goal with L : Lists ?w |- _ =>
      pose proof (fl_new (deleg_amt c) w w' ks eq_refl eq_refl); pose proof (fl_new (undel_amt c) w w' ks eq_refl eq_refl);
      hide end end.

Lemma dtos_none c ds (pv : gmap N prov) : Forall (fun d => is_Some (pv !! d_addr d)) ds -> pv !! c = None -> dtos c ds = 0.
Proof.
  intros F H. unfold dtos. induction F as [|d r [p Hd] _ IH]; [done|]. cbn. rewrite IH.
  unfold dto. destruct (N.eqb_spec (d_addr d) c) as [<-|]; [congruence|done].
Qed.

Ltac fin := unfold by_call, deleg_amt, undel_amt in *; cbn in *; try match goal with U : _ /\ _ |- context [recp (<[?x := _]> _) ?y] => destruct (x =? y) end; lia.

Lemma lost_did w o w' s c :
  Lists w -> did w o w' s ->
  p_pst (recp (w_pv w') c) + fl (deleg_amt c) w = p_pst (recp (w_pv w) c) + fl (deleg_amt c) w' + lost (by_call (deleg_amt c)) w o s w'
  /\ p_pun (recp (w_pv w') c) + fl (undel_amt c) w = p_pun (recp (w_pv w) c) + fl (undel_amt c) w' + lost (by_call (undel_amt c)) w o s w'.
Proof.
  intros L D.
  assert (HC : forall i k r w' (f : call -> N), nth_error (w_res w) i = Some (k, r) -> w_calls w' = w_calls w ->
    w_res w' = drop_nth i (w_res w) -> fl f w = f k + fl f w') by (intros; by eapply fl_cb).
  destruct D; subst_pools; try (cbn [lost]; cbn; unfold fl, unanswered; cbn; lia).
  all: try (match goal with H : nth_error (w_res ?w) ?i = Some (?k, ?r) |- _ = _ + fl (deleg_amt ?c) ?w' + _ /\ _ =>
     pose proof (HC i k r w' (deleg_amt c) H eq_refl eq_refl); pose proof (HC i k r w' (undel_amt c) H eq_refl eq_refl);
     hide end).
  - destruct s, o; try done; cbn; lia.
  - um_clean. cbn. unfold fl, unanswered; cbn. lia.
  - newc (map kdeleg ds). cbn. rewrite sum_kdeleg, sum_kdeleg0 in *.
    match goal with H : Forall (deleg_sel_ok _) _ |- _ => pose proof (dtos_none c ds _ (deleg_sel_recs _ _ H)) as Hn end.
    unfold recp. rewrite add_psts_lookup. destruct (w_pv w !! c) as [q|]; cbn; [lia|]. rewrite (Hn eq_refl) in *. lia.
  - newc (map kundel ds). cbn. rewrite sum_kundel, sum_kundel0 in *.
    match goal with H : Forall (undel_sel_ok _) _ |- _ => pose proof (dtos_none c ds _ (undel_sel_recs _ _ H)) as Hn end.
    unfold recp. rewrite add_puns_lookup. destruct (w_pv w !! c) as [q|]; cbn; [lia|]. rewrite (Hn eq_refl) in *. lia.
  - newc [KWithd c0]. fin.
  - newc [KClaim (w_dl w)]. fin.
  - newc [KWhite c0 payment caller]. unfold deleg_amt, undel_amt in *. cbn in *. unfold recp. destruct (decide (c0 = c)) as [<-|].
    + rewrite lookup_insert. match goal with K : w_pv w !! c0 = None |- _ => rewrite K end. cbn. lia.
    + rewrite lookup_insert_ne by done. lia.
  - match goal with K : w_pv w !! c0 = Some p |- context [<[c0 := ?p']> _] => pose proof (rec_upd _ _ _ p' c K) end.
    unfold fl, unanswered. cbn in *. destruct (c0 =? c); lia.
  - match goal with K : w_pv w !! c0 = Some p |- context [<[c0 := ?p']> _] => pose proof (rec_upd _ _ _ p' c K) end.
    unfold fl, unanswered. cbn in *. destruct (c0 =? c); lia.
  - newc [KIssue true caller payment]. fin.
  - newc [KIssue false caller payment]. fin.
  - match goal with K : exec_call _ _ _ = _ |- _ => apply exec_call_frame in K as [l ->] end.
    match goal with K : nth_error (w_calls w) i = Some k |- _ = _ + fl (deleg_amt ?c) ?w' + _ /\ _ =>
      pose proof (fl_exec (deleg_amt c) w w' i k r K eq_refl eq_refl); pose proof (fl_exec (undel_amt c) w w' i k r K eq_refl eq_refl);
      hide end. fin.
  - cbn [lost]. match goal with K : nth_error (w_res w) i = _ |- _ => rewrite K end. fin.
  - match goal with K : w_pv w !! c0 = Some p |- context [<[c0 := ?p']> _] => pose proof (rec_upd _ _ _ p' c K) end.
    fin.
  - match goal with K : w_pv w !! c0 = Some p |- context [<[c0 := ?p']> _] => pose proof (rec_upd _ _ _ p' c K) end.
    fin.
  - match goal with K : w_pv w !! c0 = Some p |- context [<[c0 := ?p']> _] => pose proof (rec_upd _ _ _ p' c K) end.
    fin.
  - match goal with K : w_pv w !! c0 = Some p |- context [<[c0 := ?p']> _] => pose proof (rec_upd _ _ _ p' c K) end.
    fin.
  - fin.
  - match goal with K : w_pv w !! c0 = Some p |- context [<[c0 := ?p']> _] => pose proof (rec_upd _ _ _ p' c K) end.
    fin.
  - fin.
  - fin.
  - match goal with K : w_pv w !! c0 = Some p |- context [white_ok_world c0 _ _ p _] => pose proof (fun p' => rec_upd _ _ _ p' c K) as U end.
    unfold white_ok_world. unfold deleg_amt, undel_amt in *. cbn in *. match goal with |- context [<[c0 := ?p']> _] => specialize (U p') end.
    cbn in *. destruct (c0 =? c); lia.
  - destruct (lists_take _ _ _ _ ltac:(eassumption) L) as (_ & [_ (p & Hp & Hf)] & _).
    destruct Hf as (F1 & F2 & F3 & F4). unfold deleg_amt, undel_amt in *. cbn in *. unfold recp. destruct (decide (c0 = c)) as [<-|].
    + rewrite lookup_delete, Hp. cbn. change (id p) with p. lia.
    + rewrite lookup_delete_ne by done. lia.
  - fin.
  - fin.
  - cbn [lost]. match goal with K : nth_error (w_res w) i = _ |- _ => rewrite K end. fin.
Qed.

Lemma lost_history w os c :
  Reachable w ->
  p_pst (rec (run w os) c) + deleg_in_flight w c
    = p_pst (rec w c) + deleg_in_flight (run w os) c + tally (lost (by_call (deleg_amt c))) w os
  /\ p_pun (rec (run w os) c) + undel_in_flight w c
    = p_pun (rec w c) + undel_in_flight (run w os) c + tally (lost (by_call (undel_amt c))) w os.
Proof.
  revert w. induction os as [|o os IH]; intros w Hr; [cbn; lia|].
  destruct (IH (fst (step w o)) ltac:(by constructor)) as [I1 I2].
  destruct (lost_did (set_log [] w) o _ _ c (lists w Hr) (step_did w o)) as [D1 D2].
  change (run w (o :: os)) with (run (fst (step w o)) os). cbn [tally].
  change (fl (deleg_amt c) (set_log [] w)) with (deleg_in_flight w c) in D1.
  change (fl (undel_amt c) (set_log [] w)) with (undel_in_flight w c) in D2.
  change (recp (w_pv (set_log [] w)) c) with (rec w c) in D1, D2.
  change (lost (by_call (deleg_amt c)) (set_log [] w)) with (lost (by_call (deleg_amt c)) w) in D1.
  change (lost (by_call (undel_amt c)) (set_log [] w)) with (lost (by_call (undel_amt c)) w) in D2.
  revert I1 I2 D1 D2. generalize (fst (step w o)) (snd (step w o)). intros v s.
  change (recp (w_pv v) c) with (rec v c). unfold fl. fold (deleg_in_flight v c). fold (undel_in_flight v c). lia.
Qed.

(** The same over all providers. *)
Lemma gsum_pst_upd (pv : gmap N prov) c p p' : pv !! c = Some p ->
  gsum (fun _ => p_pst) (<[c := p']> pv) + p_pst p = gsum (fun _ => p_pst) pv + p_pst p'
  /\ gsum (fun _ => p_pun) (<[c := p']> pv) + p_pun p = gsum (fun _ => p_pun) pv + p_pun p'.
Proof.
  intros H. pose proof (gsum_insert (fun _ => p_pst) pv c p') as H1. pose proof (gsum_insert (fun _ => p_pun) pv c p') as H2.
  unfold gat in *. rewrite H in *. lia.
Qed.

Definition psts (w : world) : N := gsum (fun _ => p_pst) (w_pv w).
Definition puns (w : world) : N := gsum (fun _ => p_pun) (w_pv w).

Ltac hidet :=
  match goal with |- _ = _ + fl deleg_any ?w' + _ /\ _ = _ + fl _ _ + _ =>
    generalize dependent (fl deleg_any w'); intros ? ?;
    generalize dependent (fl undel_any w'); intros ? ? end.
Ltac newt ks :=
  match goal with |- _ = _ + fl deleg_any ?w' + _ /\ _ = _ + fl _ _ + _ =>
    match goal with L : Lists ?w |- _ =>
      pose proof (fl_new deleg_any w w' ks eq_refl eq_refl); pose proof (fl_new undel_any w w' ks eq_refl eq_refl);
      hidet end end.
Ltac updt :=
  match goal with K : w_pv ?w !! ?c = Some ?p |- context [gsum _ (<[?c := ?p']> (w_pv ?w))] => pose proof (gsum_pst_upd _ _ _ p' K) end.

Lemma lost_total_did w o w' s :
  Lists w -> did w o w' s ->
  psts w' + fl deleg_any w = psts w + fl deleg_any w' + lost (by_call deleg_any) w o s w'
  /\ puns w' + fl undel_any w = puns w + fl undel_any w' + lost (by_call undel_any) w o s w'.
Proof.
  intros L D.
  assert (HC : forall i k r w' (f : call -> N), nth_error (w_res w) i = Some (k, r) -> w_calls w' = w_calls w ->
    w_res w' = drop_nth i (w_res w) -> fl f w = f k + fl f w') by (intros; by eapply fl_cb).
  unfold psts, puns.
  destruct D; subst_pools; try (cbn [lost]; cbn; unfold fl, unanswered; cbn; lia).
  all: try (match goal with H : nth_error (w_res ?w) ?i = Some (?k, ?r) |- _ = _ + fl deleg_any ?w' + _ /\ _ =>
     pose proof (HC i k r w' deleg_any H eq_refl eq_refl); pose proof (HC i k r w' undel_any H eq_refl eq_refl);
     hidet end).
  - destruct s, o; try done; cbn; lia.
  - um_clean. cbn. unfold fl, unanswered; cbn. lia.
  - newt (map kdeleg ds). cbn. destruct (sum_any_deleg ds) as [E1 E2]. rewrite E1, E2 in *.
    match goal with H : Forall (deleg_sel_ok _) _ |- _ => pose proof (deleg_sel_recs _ _ H) as Hn end.
    rewrite (gsum_add_psts p_pun), gsum_pst_add_psts by done. lia.
  - newt (map kundel ds). cbn. destruct (sum_any_undel ds) as [E1 E2]. rewrite E1, E2 in *.
    match goal with H : Forall (undel_sel_ok _) _ |- _ => pose proof (undel_sel_recs _ _ H) as Hn end.
    rewrite (gsum_add_puns p_pst), gsum_pun_add_puns by done. lia.
  - newt [KWithd c]. cbn in *. lia.
  - newt [KClaim (w_dl w)]. cbn in *. lia.
  - newt [KWhite c payment caller]. cbn in *. rewrite !gsum_insert_new by done. cbn. lia.
  - unfold fl, unanswered. cbn in *. updt. cbn in *. lia.
  - unfold fl, unanswered. cbn in *. updt. cbn in *. lia.
  - newt [KIssue true caller payment]. cbn in *. lia.
  - newt [KIssue false caller payment]. cbn in *. lia.
  - match goal with K : exec_call _ _ _ = _ |- _ => apply exec_call_frame in K as [l ->] end.
    match goal with K : nth_error (w_calls w) i = Some k |- _ = _ + fl deleg_any ?w' + _ /\ _ =>
      pose proof (fl_exec deleg_any w w' i k r K eq_refl eq_refl); pose proof (fl_exec undel_any w w' i k r K eq_refl eq_refl);
      hidet end. cbn in *. lia.
  - cbn [lost]. match goal with K : nth_error (w_res w) i = _ |- _ => rewrite K end. unfold by_call. cbn in *. lia.
  - cbn in *. updt. cbn in *. lia.
  - cbn in *. updt. cbn in *. lia.
  - cbn in *. updt. cbn in *. lia.
  - cbn in *. updt. cbn in *. lia.
  - cbn in *. lia.
  - cbn in *. updt. cbn in *. lia.
  - cbn in *. lia.
  - cbn in *. lia.
  - unfold white_ok_world. cbn in *. updt. cbn in *. lia.
  - destruct (lists_take _ _ _ _ ltac:(eassumption) L) as (_ & [_ (p & Hp & Hf)] & _).
    destruct Hf as (F1 & F2 & F3 & F4). cbn in *. rewrite !(gsum_delete _ (w_pv w) _ _ Hp), F3, F4. lia.
  - cbn in *. lia.
  - cbn in *. lia.
  - cbn [lost]. match goal with K : nth_error (w_res w) i = _ |- _ => rewrite K end. unfold by_call. cbn in *. lia.
Qed.

Lemma lost_total w os :
  Reachable w ->
  pending_staking_total (run w os) + delegating_total w
    = pending_staking_total w + delegating_total (run w os) + tally (lost (by_call deleg_any)) w os
  /\ pending_unstaking_total (run w os) + undelegating_total w
    = pending_unstaking_total w + undelegating_total (run w os) + tally (lost (by_call undel_any)) w os.
Proof.
  revert w. induction os as [|o os IH]; intros w Hr; [cbn; lia|].
  destruct (IH (fst (step w o)) ltac:(by constructor)) as [I1 I2].
  destruct (lost_total_did (set_log [] w) o _ _ (lists w Hr) (step_did w o)) as [D1 D2].
  change (run w (o :: os)) with (run (fst (step w o)) os). cbn [tally].
  change (fl deleg_any (set_log [] w)) with (delegating_total w) in D1.
  change (fl undel_any (set_log [] w)) with (undelegating_total w) in D2.
  change (psts (set_log [] w)) with (pending_staking_total w) in D1.
  change (puns (set_log [] w)) with (pending_unstaking_total w) in D2.
  change (lost (by_call deleg_any) (set_log [] w)) with (lost (by_call deleg_any) w) in D1.
  change (lost (by_call undel_any) (set_log [] w)) with (lost (by_call undel_any) w) in D2.
  revert I1 I2 D1 D2. generalize (fst (step w o)) (snd (step w o)). intros v s.
  unfold fl. fold (delegating_total v). fold (undelegating_total v).
  change (psts v) with (pending_staking_total v). change (puns v) with (pending_unstaking_total v). lia.
Qed.

Lemma lost_total_deployed w os :
  Deployed w ->
  pending_staking_total (run w os) = delegating_total (run w os) + tally (lost (by_call deleg_any)) w os
  /\ pending_unstaking_total (run w os) = undelegating_total (run w os) + tally (lost (by_call undel_any)) w os.
Proof.
  intros Hd. pose proof (lost_total w os (deployed_reach w Hd)) as H.
  destruct (deploy_shape w Hd) as (g & e & ow & ->).
  revert H. set (v := run _ os). clearbody v. set (t := tally (lost (by_call deleg_any)) _ os). set (t' := tally (lost (by_call undel_any)) _ os).
  clearbody t t'. cbn. unfold pending_staking_total at 2, pending_unstaking_total at 2. cbn. rewrite !gsum_empty. lia.
Qed.

Lemma ust_backing_lost w os :
  Deployed w ->
  ust_of_users (run w os) + history_sum ust_given_away w os
  = unstake_queue (run w os) + undelegating_total (run w os) + unbonding (run w os)
    + total_withdrawn (run w os) + tally (lost (by_call undel_any)) w os.
Proof. intros Hd. rewrite ust_backing by done. destruct (lost_total_deployed w os Hd) as [_ ->]. lia. Qed.

Lemma reserve_backing_lost w os :
  Deployed w ->
  virtual_reserve (run w os) + unstake_queue (run w os) + undelegating_total (run w os)
    + history_sum migrated_pending w os + tally (lost (by_call undel_any)) w os
  = pending_egld (run w os) + staked_total (run w os) + delegating_total (run w os)
    + history_sum migrated_stake w os + tally (lost (by_call deleg_any)) w os.
Proof. intros Hd. pose proof (reserve_backing w os Hd). destruct (lost_total_deployed w os Hd) as [E1 E2]. lia. Qed.

Lemma abort_effect w i x :
  nth_error (w_res w) i = Some x ->
  let w' := fst (step w (OAbort i)) in
  snd (step w (OAbort i)) = SCbFail EAborted
  /\ contract_egld w' = contract_egld w + comes_with x /\ w_res w' = drop_nth i (w_res w) /\ w_calls w' = w_calls w
  /\ w_pool w' = w_pool w /\ w_pv w' = w_pv w /\ w_dl w' = w_dl w /\ w_ul w' = w_ul w /\ w_log w' = []
  /\ ledgers_unchanged w w' /\ env_unchanged w w'.
Proof.
  intros H. destruct x as [k r]. unfold step. cbn. rewrite H. cbn. rewrite attached_comes. repeat split; done.
Qed.

Lemma lost_clean f w os : clean_history w os -> tally (lost f) w os = 0.
Proof.
  unfold clean_history. revert w. induction os as [|o os IH]; intros w H; cbn [tally statuses] in *; [done|].
  inversion_clear H as [|s l Hs Hl]. rewrite (IH _ Hl). revert Hs. generalize (snd (step w o)). intros s Hs.
  unfold lost. destruct o, s; try done; by destruct Hs.
Qed.
