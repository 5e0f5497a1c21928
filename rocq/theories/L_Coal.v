(** L_Coal.v — what a group of accounts can gain. *)
From Verif Require Export Spec5 L_Real.

Definition phi (w : world) : N := reserve (w_pool w) + users_ust (w_ust w) + deposits_under_way w.
Definition sent_all (_ : world) (_ : op) (_ : status) (w' : world) : N := sumN (map transferred (w_log w')).
Definition paid_all (_ : world) (o : op) (s : status) (_ : world) : N :=
  match o, s with OTx _ a _ _, SOk => a | _, _ => 0 end.
Definition migr (_ : world) (o : op) (s : status) (_ : world) : N := migrated_stake o s.

Lemma first_deleg ds : sumN (map first_stake (map (fun d => KDeleg (d_addr d) (d_amt d)) ds)) = 0.
Proof. induction ds; cbn; lia. Qed.
Lemma first_undel ds : sumN (map first_stake (map (fun d => KUndel (d_addr d) (d_amt d)) ds)) = 0.
Proof. induction ds; cbn; lia. Qed.

Lemma phi_did w o w' s :
  w_log w = [] -> did w o w' s ->
  phi w' + sent_all w o s w' <= phi w + paid_all w o s w' + reward_credited w o s w' + migr w o s w'.
Proof.
  intros Hl D. unfold phi, sent_all, paid_all, reward_credited, migr, deposits_under_way.
  destruct D; subst_pools;
    try (match goal with H : nth_error (w_res w) ?i = Some (?k, ?r) |- _ =>
           pose proof (sumN_drop_nth may_return i (w_res w) (k, r) H) as HD; try (is_var r; destruct r); try discriminate; rewrite ?H end);
    try (lg Hl; rewrite ?map_app, ?sumN_app, ?first_deleg, ?first_undel; cbn in *; lia).
  - unshelve epose proof (maybe_quiet transferred _ _ _ _ _ transferred_quiet _ H9) as HQ; [exact Hl|].
    match goal with H : ust_maybe _ _ _ _ |- _ => pose proof (users_maybe _ _ _ _ ltac:(eassumption) H) as Hu end.
    pose proof (split_facts (pend (w_pool w)) (redeemed x (w_pool w))) as Hs. cbn zeta in Hs. destruct Hs as (Hs1 & Hs2 & _).
    rewrite egld_paid_eq in Hu. cbn in Hu.
    cbn. rewrite !map_app, !sumN_app, HQ. um_clean. subst e i r. cbn in *. destruct (0 <? _) eqn:B; lia.
  - match goal with H : wd_post _ _ _ _ _ |- _ => destruct H as (K1 & K2 & K3 & K4) end.
    rewrite (back_total_eq w) in K4 by done. subst s. lg Hl. lia.
  - pose proof (sumN_drop_nth first_stake i (w_calls w) k H) as HD.
    match goal with H : exec_call _ _ _ = _ |- _ => pose proof H as HE; apply exec_call_frame in H as [l ->] end.
    cbn in *. rewrite Hl, map_app, sumN_app. cbn. destruct r; destruct k; cbn in *; lia.
  - assert (Ef : v * c_fees (w_cfg w) / 10000 = fee_of v w) by reflexivity. rewrite Ef. clear Ef.
    lg Hl. lia.
  - lg Hl. destruct (0 <? a) eqn:B; cbn in *; lia.
  - lg Hl. pose proof (users_move n from to a w). lia.
Qed.

Lemma self_ls_did w o w' s : did w o w' s -> lbal w SELF <= lbal w' SELF.
Proof.
  intros D. unfold lbal. destruct D; try apply N.le_refl.
  - cbn. rewrite amt_credit, amt_insert. repeat case_decide; subst; try done; unfold lbal; cbn; lia.
  - rewrite egld_paid_eq in H9. apply ust_maybe_frame in H9 as (? & ? & ? & ? & ? & ->). cbn.
    rewrite !amt_insert. repeat case_decide; subst; try done; unfold lbal; cbn; lia.
  - cbn. rewrite amt_credit, amt_insert. repeat case_decide; subst; try done; unfold lbal; cbn; lia.
  - match goal with H : exec_call _ _ _ = _ |- _ => apply exec_call_frame in H as [l ->] end. cbn. apply N.le_refl.
  - unfold white_ok_world. cbn. rewrite amt_credit, amt_insert. repeat case_decide; subst; try done; unfold lbal; cbn; lia.
  - cbn. rewrite amt_credit, amt_insert. repeat case_decide; subst; try done; unfold lbal; cbn; lia.
Qed.

Lemma rc_run w os : Reachable w -> Reachable (run w os).
Proof. revert w. induction os as [|o os IH]; intros w H; [done|]. cbn [run]. apply IH. by constructor. Qed.

Section GROUP.
Context (S : group) (HS : S SELF = false).
Let rest : group := fun u => negb (S u).
Let others : group := fun u => negb (S u) && negb (u =? SELF).

Lemma ls_split w : ls_in_existence w = ls_held S w + ls_held rest w.
Proof.
  unfold ls_in_existence, ls_held, rest. generalize (w_ls w). clear HS. intros m.
  induction m as [|k v m Hk IH] using map_ind; [by rewrite !gsum_empty|].
  rewrite !gsum_insert_new by done. rewrite IH. destruct (S k); cbn; lia.
Qed.

Lemma ust_split w : ust_of_users w = ust_held S w + ust_held others w.
Proof.
  unfold ust_of_users, ust_held, others. generalize (w_ust w). intros m.
  induction m as [|k v m Hk IH] using map_ind; [by rewrite !gsum_empty|].
  rewrite !gsum_insert_new by done. rewrite IH. destruct (N.eqb_spec (snd k) SELF) as [E|E].
  - rewrite E, HS. cbn. lia.
  - destruct (S (snd k)); cbn; lia.
Qed.

Lemma rest_step w o : only_group S o -> ls_held rest w <= ls_held rest (fst (step w o)) /\ ust_held others w <= ust_held others (fst (step w o)).
Proof.
  intros Ho. split; apply (gsum_sel_le (K := _)).
  - intros u Hu. rewrite Hu. destruct (N.eq_dec u SELF) as [->|E].
    + exact (self_ls_did _ _ _ _ (step_did w o)).
    + apply (bystander w o u E). intros K. specialize (Ho u K). unfold rest in Hu. by rewrite Ho in Hu.
  - intros [n u] Hu. rewrite Hu. unfold others in Hu. cbn in Hu. apply andb_true_iff in Hu as [Hu E].
    rewrite negb_true_iff, N.eqb_neq in E.
    destruct (bystander w o u E) as [_ B]; [|exact (B n)]. intros K. specialize (Ho u K). by rewrite Ho in Hu.
Qed.

Lemma rest_worth w o : Reachable w -> only_group S o ->
  egld_worth w (ls_held rest w) <= egld_worth (fst (step w o)) (ls_held rest (fst (step w o))).
Proof.
  intros Hr Ho. destruct (rest_step w o Ho) as [Hb _].
  pose proof (rate_step w o Hr) as H3. unfold egld_worth.
  assert (HL : forall v, Reachable v -> ls_held rest v <= ls_supply v).
  { intros v Hv. rewrite (eq_sym (a_supply v (acct v Hv)) : ls_supply v = ls_in_existence v), ls_split. lia. }
  pose proof (HL w Hr) as H1. pose proof (HL _ (reach_step w o Hr)) as H2.
  destruct (N.eqb_spec (ls_held rest w) 0) as [E|E].
  - rewrite E, N.mul_0_l. destruct (N.eqb_spec (ls_supply w) 0) as [E2|E2]; [rewrite E2|rewrite N.div_0_l by done]; apply N.le_0_l.
  - apply worth_mono; lia.
Qed.

Lemma received_le l : sumN (map (fun e => match e with XEgld u a => if S u then a else 0 | _ => 0 end) l) <= sumN (map transferred l).
Proof. induction l as [|e l IH]; [done|]. cbn [map sumN]. destruct e; cbn [transferred]; try lia. destruct (S to); lia. Qed.

(** the pool less what the others own, and the group's unstake tokens *)
Definition theirs (w : world) : N := virtual_reserve w - egld_worth w (ls_held rest w) + ust_held S w + deposits_under_way w.

Lemma worth_le w x : x <= ls_supply w -> egld_worth w x <= virtual_reserve w.
Proof.
  intros Hx. unfold egld_worth. destruct (N.eq_dec (ls_supply w) 0) as [E|E]; [rewrite E; destruct (x * virtual_reserve w); apply N.le_0_l|].
  apply N.div_le_upper_bound; [done|]. nia.
Qed.

Lemma rest_le w : Reachable w -> ls_held rest w <= ls_supply w.
Proof. intros Hv. rewrite (eq_sym (a_supply w (acct w Hv)) : ls_supply w = ls_in_existence w), ls_split. lia. Qed.

Lemma theirs_step w o : Reachable w -> only_group S o ->
  let w' := fst (step w o) in let s := snd (step w o) in
  received_by S w o s w' + theirs w' <= theirs w + paid_by S w o s w' + reward_credited w o s w' + migr w o s w'.
Proof.
  intros Hr Ho w' s. pose proof (phi_did (set_log [] w) _ _ _ eq_refl (step_did w o)) as H.
  fold w' s in H. change (phi (set_log [] w)) with (phi w) in H.
  change (reward_credited (set_log [] w)) with (reward_credited w) in H.
  unfold phi in H. change (users_ust (w_ust w')) with (ust_of_users w') in H. change (users_ust (w_ust w)) with (ust_of_users w) in H.
  change (reserve (w_pool w')) with (virtual_reserve w') in H. change (reserve (w_pool w)) with (virtual_reserve w) in H.
  rewrite !ust_split in H. destruct (rest_step w o Ho) as [_ H1]. pose proof (rest_worth w o Hr Ho) as H2. fold w' in H1, H2.
  pose proof (worth_le w _ (rest_le w Hr)) as H3. pose proof (worth_le w' _ (rest_le w' (reach_step w o Hr))) as H4.
  assert (H5 : received_by S w o s w' <= sent_all (set_log [] w) o s w') by apply received_le.
  assert (H6 : paid_all (set_log [] w) o s w' <= paid_by S w o s w').
  { unfold paid_all, paid_by. destruct o; try done. destruct s; try done. rewrite (Ho caller eq_refl). done. }
  unfold migr in *. unfold theirs. lia.
Qed.

Lemma theirs_history os : forall w, Reachable w -> Forall (only_group S) os ->
  tally (received_by S) w os + theirs (run w os)
  <= theirs w + tally (paid_by S) w os + tally reward_credited w os + history_sum migrated_stake w os.
Proof.
  induction os as [|o os IH]; intros w Hr HF; cbn [run tally history_sum]; [lia|].
  inversion_clear HF. specialize (IH _ (reach_step w o Hr) ltac:(done)). pose proof (theirs_step w o Hr ltac:(done)) as H1.
  cbn zeta in H1. unfold migr in H1. lia.
Qed.

Lemma div_split a b R T : T <> 0 -> a * R / T + b * R / T <= (a + b) * R / T.
Proof.
  intros HT. apply N.div_le_lower_bound; [done|].
  pose proof (N.mul_div_le (a * R) T HT). pose proof (N.mul_div_le (b * R) T HT). nia.
Qed.
Lemma div_split_up a b R T : T <> 0 -> a + b = T -> R <= a * R / T + b * R / T + 1.
Proof.
  intros HT E. pose proof (N.mul_succ_div_gt (a * R) T HT). pose proof (N.mul_succ_div_gt (b * R) T HT). nia.
Qed.

Lemma theirs_ge w : Reachable w -> egld_worth w (ls_held S w) + ust_held S w <= theirs w.
Proof.
  intros Hr. unfold theirs. pose proof (rest_le w Hr) as H1.
  pose proof (eq_sym (a_supply w (acct w Hr)) : ls_supply w = ls_in_existence w) as H2. rewrite ls_split in H2.
  enough (egld_worth w (ls_held S w) + egld_worth w (ls_held rest w) <= virtual_reserve w) by lia.
  unfold egld_worth. destruct (N.eq_dec (ls_supply w) 0) as [E|E].
  - assert (ls_held S w = 0 /\ ls_held rest w = 0) as [-> ->] by lia. rewrite E. cbn. lia.
  - etrans; [apply div_split; done|]. rewrite <- H2. rewrite N.mul_comm, N.div_mul by done. lia.
Qed.

Lemma group_gain w os :
  Reachable w -> Forall (only_group S) os -> 0 < ls_supply w ->
  tally (received_by S) w os + egld_worth (run w os) (ls_held S (run w os)) + ust_held S (run w os)
  <= tally (paid_by S) w os + (egld_worth w (ls_held S w) + 1) + ust_held S w
     + tally reward_credited w os + history_sum migrated_stake w os + deposits_under_way w.
Proof.
  intros Hr HF Hs. pose proof (theirs_history os w Hr HF) as H1.
  pose proof (theirs_ge (run w os) (rc_run w os Hr)) as H2.
  pose proof (eq_sym (a_supply w (acct w Hr)) : ls_supply w = ls_in_existence w) as H3. rewrite ls_split in H3.
  pose proof (div_split_up (ls_held S w) (ls_held rest w) (virtual_reserve w) (ls_supply w) ltac:(lia) ltac:(lia)
    : virtual_reserve w <= egld_worth w (ls_held S w) + egld_worth w (ls_held rest w) + 1) as H4.
  assert (H5 : theirs w <= egld_worth w (ls_held S w) + 1 + ust_held S w + deposits_under_way w) by (unfold theirs; lia).
  clear H4. lia.
Qed.

Lemma group_gain_empty w os :
  Reachable w -> Forall (only_group S) os -> ls_supply w = 0 ->
  tally (received_by S) w os + egld_worth (run w os) (ls_held S (run w os)) + ust_held S (run w os)
  <= tally (paid_by S) w os + virtual_reserve w + ust_held S w
     + tally reward_credited w os + history_sum migrated_stake w os + deposits_under_way w.
Proof.
  intros Hr HF Hs. pose proof (theirs_history os w Hr HF) as H1.
  pose proof (theirs_ge (run w os) (rc_run w os Hr)) as H2.
  assert (H5 : theirs w <= virtual_reserve w + ust_held S w + deposits_under_way w) by (unfold theirs; lia). lia.
Qed.
End GROUP.

(** * Trading does not move the price *)
Lemma mint_ceil a c : supply c <= reserve c -> a * supply c <= (minted a c + 1) * reserve c.
Proof.
  intros H. unfold minted. destruct (0 <? reserve c) eqn:B.
  - pose proof (N.mul_succ_div_gt (a * supply c) (reserve c) ltac:(lia)). nia.
  - assert (supply c = 0) as -> by lia. lia.
Qed.
Lemma redeem_ceil x c : supply c <> 0 -> x * reserve c <= (redeemed x c + 1) * supply c.
Proof.
  intros H. unfold redeemed. destruct (N.eqb_spec (supply c) 0); [done|].
  pose proof (N.mul_succ_div_gt (x * reserve c) (supply c) ltac:(lia)). nia.
Qed.

Lemma drift_did w o w' s :
  Acct w -> ~ brings_rewards w o -> did w o w' s ->
  reserve (w_pool w') * supply (w_pool w) <= reserve (w_pool w) * supply (w_pool w') + reserve (w_pool w).
Proof.
  intros [_ _ HP] Hb D. destruct D; subst_pools; try (cbn; lia).
  - cbn. change (minted a _) with (minted a (w_pool w)). pose proof (mint_ceil a (w_pool w) HP). nia.
  - cbn. pose proof (redeem_ceil x (w_pool w) ltac:(lia)). subst e. nia.
  - cbn. pose proof (mint_ceil a (w_pool w) HP). nia.
  - cbn in *. assert (a = 0) as -> by lia. lia.
  - match goal with H : exec_call _ _ _ = _ |- _ => apply exec_call_frame in H as [l ->] end. cbn. lia.
  - cbn in Hb. rewrite H in Hb. lia.
  - unfold white_ok_world. cbn. pose proof (mint_ceil a (w_pool w) HP). nia.
Qed.

Lemma drift_step w o :
  Reachable w -> ~ brings_rewards w o ->
  virtual_reserve (fst (step w o)) * ls_supply w <= virtual_reserve w * ls_supply (fst (step w o)) + virtual_reserve w.
Proof.
  intros H Hb. apply (drift_did (set_log [] w) o _ (snd (step w o))); [|exact Hb|apply step_did].
  destruct (acct w H). by split.
Qed.

Lemma drift_history L os : forall w, Reachable w -> 0 < L ->
  along (fun v o => ~ brings_rewards v o) w os -> always (fun v => L <= virtual_reserve v) w os ->
  let z := run w os in
  ls_supply w * virtual_reserve z * L
  <= ls_supply z * virtual_reserve w * L + N.of_nat (length os) * (virtual_reserve w * virtual_reserve z)
  /\ virtual_reserve w * ls_supply z <= virtual_reserve z * ls_supply w.
Proof.
  induction os as [|o os IH]; intros w Hr HL Ha Hv; [cbn; lia|].
  destruct Ha as [Hb Ha]. cbn [always run] in *. destruct Hv as [H0 Hv].
  destruct (IH _ (reach_step w o Hr) HL Ha Hv) as [I1 I2]. cbn zeta in I1, I2.
  pose proof (drift_step w o Hr Hb) as D1. pose proof (rate_step w o Hr) as D2.
  assert (Hp : L <= virtual_reserve (fst (step w o))) by (destruct os; apply Hv).
  replace (N.of_nat (length (o :: os))) with (N.of_nat (length os) + 1) by (cbn [length]; lia).
  assert (Hz : L <= virtual_reserve (run (fst (step w o)) os)).
  { clear -Hv. revert Hv. generalize (fst (step w o)). induction os as [|p os IH]; intros v Hv; [apply Hv|]. apply IH, Hv. }
  set (v := fst (step w o)) in *. set (z := run v os) in *. set (n := N.of_nat (length os)) in *.
  set (r0 := virtual_reserve w) in *. set (s0 := ls_supply w) in *. set (r1 := virtual_reserve v) in *. set (s1 := ls_supply v) in *.
  set (r2 := virtual_reserve z) in *. set (s2 := ls_supply z) in *. clearbody v z r0 s0 r1 s1 r2 s2 n.
  split.
  - apply (N.mul_le_mono_pos_l _ _ r1); [lia|].
    transitivity ((r0 * s1 + r0) * (r2 * L)); [nia|].
    transitivity (r0 * (s2 * r1 * L + n * (r1 * r2)) + r0 * r2 * L); [nia|]. nia.
  - apply (N.mul_le_mono_pos_l _ _ r1); [lia|]. nia.
Qed.

Lemma quote_drift L os w a : Reachable w -> 0 < L ->
  along (fun v o => ~ brings_rewards v o) w os -> always (fun v => L <= virtual_reserve v) w os ->
  ls_worth (run w os) a <= ls_worth w a <= ls_worth (run w os) a + N.of_nat (length os) * a / L + 1.
Proof.
  intros Hr HL Ha Hv. destruct (drift_history L os w Hr HL Ha Hv) as [H1 H2].
  assert (Hz : L <= virtual_reserve (run w os)).
  { clear -Hv. revert w Hv. induction os as [|p os IH]; intros v Hv; [apply Hv|]. apply IH, Hv. }
  assert (H0 : L <= virtual_reserve w) by (destruct os; apply Hv).
  unfold ls_worth. set (z := run w os) in *. set (n := N.of_nat (length os)) in *.
  set (r0 := virtual_reserve w) in *. set (s0 := ls_supply w) in *.
  set (r2 := virtual_reserve z) in *. set (s2 := ls_supply z) in *. clearbody z r0 s0 r2 s2 n.
  destruct (N.eqb_spec r0 0); [lia|]. destruct (N.eqb_spec r2 0); [lia|]. split.
  - apply N.div_le_lower_bound; [done|]. pose proof (N.mul_div_le (a * s2) r2 ltac:(done)) as Hq.
    set (q := a * s2 / r2) in *. clearbody q. apply (N.mul_le_mono_pos_l _ _ r2); [lia|]. nia.
  - pose proof (N.mul_div_le (a * s0) r0 ltac:(done)) as Hq.
    pose proof (N.mul_succ_div_gt (a * s2) r2 ltac:(done)) as Hq2. pose proof (N.mul_succ_div_gt (n * a) L ltac:(lia)) as Hq3.
    set (q := a * s0 / r0) in *. set (q2 := a * s2 / r2) in *. set (q3 := n * a / L) in *. clearbody q q2 q3.
    enough (q < q2 + 1 + (q3 + 1)) by lia.
    apply (N.mul_lt_mono_pos_l (r0 * r2 * L)); [nia|].
    replace (r0 * r2 * L * q) with (r0 * q * (r2 * L)) by ring.
    apply N.le_lt_trans with (a * s0 * (r2 * L)); [apply N.mul_le_mono_r, Hq|].
    replace (a * s0 * (r2 * L)) with (a * (s0 * r2 * L)) by ring.
    apply N.le_lt_trans with (a * (s2 * r0 * L + n * (r0 * r2))); [apply N.mul_le_mono_l, H1|].
    rewrite <- N.add_1_r in Hq2, Hq3.
    assert (K1 : a * s2 * (r0 * L) < r2 * (q2 + 1) * (r0 * L)) by (apply N.mul_lt_mono_pos_r; [nia|done]).
    assert (K2 : n * a * (r0 * r2) < L * (q3 + 1) * (r0 * r2)) by (apply N.mul_lt_mono_pos_r; [nia|done]).
    replace (a * (s2 * r0 * L + n * (r0 * r2))) with (a * s2 * (r0 * L) + n * a * (r0 * r2)) by ring.
    replace (r0 * r2 * L * (q2 + 1 + (q3 + 1))) with (r2 * (q2 + 1) * (r0 * L) + L * (q3 + 1) * (r0 * r2)) by ring.
    lia.
Qed.
