(** L_Pool.v — the exchange rate, minting and redeeming. *)
From Verif Require Export L_Safe.

Ltac did_of w o H :=
  let D := fresh "D" in let s := fresh "s" in let oo := fresh "oo" in let Es := fresh "Es" in let Eo := fresh "Eo" in
  pose proof (step_did w o) as D; rewrite H in D;
  remember (fst (step w o)) as w' eqn:Ew;
  remember SOk as s eqn:Es in D; remember o as oo eqn:Eo in D;
  destruct D; try discriminate Es; try discriminate Eo;
  try (match goal with H : match ?s with _ => _ end, E : ?s = SOk |- _ => rewrite E in H; destruct H end);
  try (injection Eo; clear Eo; intros; subst); try (exfalso; assumption).

(** * The price never falls *)
Lemma mint_floor a c : supply c <= reserve c -> minted a c * reserve c <= a * supply c.
Proof.
  intros H. unfold minted. destruct (0 <? reserve c) eqn:B.
  - rewrite N.mul_comm. apply N.mul_div_le. lia.
  - nia.
Qed.

Lemma redeem_floor x c : redeemed x c * supply c <= x * reserve c.
Proof.
  unfold redeemed. destruct (N.eqb_spec (supply c) 0) as [->|H]; [lia|].
  rewrite N.mul_comm. by apply N.mul_div_le.
Qed.

Lemma rate_did w o w' s :
  Acct w -> did w o w' s ->
  reserve (w_pool w) * supply (w_pool w') <= reserve (w_pool w') * supply (w_pool w).
Proof.
  intros [_ _ HP] D. destruct D; subst_pools; try (cbn; lia).
  - cbn. change (minted a _) with (minted a (w_pool w)). pose proof (mint_floor a (w_pool w) HP). nia.
  - cbn. pose proof (redeem_floor x (w_pool w)). subst e. nia.
  - cbn. pose proof (mint_floor a (w_pool w) HP). nia.
  - match goal with H : exec_call _ _ _ = _ |- _ => apply exec_call_frame in H as [l ->] end. cbn. lia.
  - cbn. nia.
  - unfold white_ok_world. cbn. pose proof (mint_floor a (w_pool w) HP). nia.
Qed.

Lemma rate_step w o :
  Reachable w -> virtual_reserve w * ls_supply (fst (step w o)) <= virtual_reserve (fst (step w o)) * ls_supply w.
Proof.
  intros H. apply (rate_did (set_log [] w) o _ (snd (step w o))); [|apply step_did].
  destruct (acct w H). by split.
Qed.

Lemma rate_history w os :
  Reachable w -> always (fun v => 0 < ls_supply v) w os ->
  virtual_reserve w * ls_supply (run w os) <= virtual_reserve (run w os) * ls_supply w.
Proof.
  revert w. induction os as [|o os IH]; intros w Hr Ha; [cbn; lia|].
  cbn [always run] in *. destruct Ha as [H0 Ha].
  pose proof (rate_step w o Hr) as H1. specialize (IH _ (reach_step w o Hr) Ha).
  assert (Hp : 0 < ls_supply (fst (step w o))) by (destruct os; apply Ha).
  set (v := fst (step w o)) in *. set (z := run v os) in *.
  set (r0 := virtual_reserve w) in *. set (s0 := ls_supply w) in *. set (r1 := virtual_reserve v) in *. set (s1 := ls_supply v) in *.
  set (r2 := virtual_reserve z) in *. set (s2 := ls_supply z) in *. clearbody v z r0 s0 r1 s1 r2 s2.
  apply (N.mul_le_mono_pos_l _ _ s1); [done|]. nia.
Qed.

Lemma no_profit w os :
  Reachable w -> always (fun v => 0 < ls_supply v) w os -> ls_supply (run w os) = ls_supply w ->
  virtual_reserve w <= virtual_reserve (run w os).
Proof.
  intros Hr Ha He. pose proof (rate_history w os Hr Ha) as H. rewrite He in H.
  assert (0 < ls_supply w) by (destruct os; apply Ha). nia.
Qed.

(** * Deposits *)
Lemma delegate_done w u a pays :
  snd (step w (OTx u a pays Delegate)) = SOk ->
  let c := w_pool w in let w' := fst (step w (OTx u a pays Delegate)) in
  pays = [] /\ u <> SELF /\ c_lstok (w_cfg w) = TIssued /\ c_active (w_cfg w) = true
  /\ 0 < a /\ 0 < minted a c /\ (snd (split_of (pfu c) a) = 0 \/ MIN_EGLD <= pend c + snd (split_of (pfu c) a))
  /\ w' = commit (delegate_pool a c)
        (emit (EvAdd a u (delegate_pool a c) (w_epoch w))
          (emit (XLs u (minted a c)) (ls_paid u (minted a c) (recv a (set_log [] w))))).
Proof.
  intros H. cbv zeta. did_of w (OTx u a pays Delegate) H. cbn in *. split_and!; try done.
Qed.

Lemma delegate_pool_eq a c :
  delegate_pool a c = Pool (supply c + minted a c) (reserve c + a) (fees_res c)
    (withdrawn c + fst (split_of (pfu c) a)) (pend c + snd (split_of (pfu c) a))
    (pfu c - fst (split_of (pfu c) a)) (pfb c).
Proof. done. Qed.

Lemma ls_paid_balance v to m L :
  to <> SELF -> amt_at (credit (<[SELF := amt_at L SELF]> L) to m) v = amt_at L v + (if v =? to then m else 0).
Proof.
  intros Ht. rewrite amt_credit, amt_insert. destruct (N.eqb_spec v to) as [->|Hv]; repeat case_decide; subst; try done; lia.
Qed.

Lemma delegate_effects w u a pays :
  snd (step w (OTx u a pays Delegate)) = SOk ->
  let c := w_pool w in let w' := fst (step w (OTx u a pays Delegate)) in
  (forall v, ls_balance v w' = ls_balance v w + (if v =? u then minted a c else 0))
  /\ w_pool w' = delegate_pool a c /\ w_egld w' = w_egld w + a
  /\ rest_unchanged w w' /\ ust_unchanged w w' /\ (forall v, egld_sent v w' = 0).
Proof.
  intros H. apply delegate_done in H as (-> & Hu & _ & _ & _ & _ & _ & Hw). cbv zeta in *. rewrite Hw. split_and!; try done.
  intros v. unfold ls_balance. cbn. by apply ls_paid_balance.
Qed.

(** * Redemptions *)
Lemma undelegate_done w u eg pays :
  snd (step w (OTx u eg pays UnDelegate)) = SOk ->
  let c := w_pool w in let w' := fst (step w (OTx u eg pays UnDelegate)) in
  exists x w3, let e := redeemed x c in let i := fst (split_of (pend c) e) in let r := snd (split_of (pend c) e) in
  pays = [Pay TokLs x] /\ eg = 0 /\ u <> SELF /\ c_lstok (w_cfg w) = TIssued /\ c_active (w_cfg w) = true
  /\ 0 < x /\ x <= supply c /\ 0 < e /\ e <= reserve c /\ x <= ls_balance u w /\ i <= w_egld w
  /\ (r = 0 \/ MIN_EGLD <= pfu c + r)
  /\ ust_maybe u r (egld_paid u i
      (set_ls (<[SELF := lbal w SELF]> (<[u := lbal w u - x]> (w_ls w))) (set_log [] w))) w3
  /\ w' = commit (undelegate_pool x c) (emit (EvRemove e u (undelegate_pool x c) (w_epoch w)) w3).
Proof.
  intros H. cbv zeta. did_of w (OTx u eg pays UnDelegate) H. exists x, w3. cbn in *. split_and!; try done.
Qed.

Lemma ust_balance_insert (m : gmap (N * N) N) n a v u :
  gsum (fun k v => if snd k =? u then v else 0) (<[(n, a) := v]> m) + (if a =? u then amt_at m (n, a) else 0)
  = gsum (fun k v => if snd k =? u then v else 0) m + (if a =? u then v else 0).
Proof. exact (gsum_ledger (fun k : N * N => snd k =? u) m (n, a) v). Qed.

Definition ustb (u : N) (m : gmap (N * N) N) : N := gsum (fun k v => if snd k =? u then v else 0) m.

Lemma ustb_self u n v m : u <> SELF -> ustb u (<[(n, SELF) := v]> m) = ustb u m.
Proof. intros Hu. pose proof (ust_balance_insert m n SELF v u) as H. fold (ustb u m) in H. unfold ustb at 1.
  destruct (N.eqb_spec SELF u); [by subst|]. lia. Qed.

Lemma ustb_credit (u n to a : N) (m : gmap (N * N) N) : ustb u (credit m (n, to) a) = ustb u m + (if to =? u then a else 0).
Proof.
  unfold credit. pose proof (ust_balance_insert m n to (amt_at m (n, to) + a) u) as H. fold (ustb u m) in H. unfold ustb at 1.
  destruct (to =? u); lia.
Qed.

Lemma issue_balance caller a u w n w' v :
  v <> SELF -> ust_issue caller a u w n w' -> ustb v (w_ust w') = ustb v (w_ust w) + (if caller =? v then a else 0).
Proof.
  intros Hv D. destruct D; cbn; rewrite ustb_credit, !ustb_self by done; done.
Qed.

Lemma maybe_balance caller r w w' v :
  v <> SELF -> ust_maybe caller r w w' -> ustb v (w_ust w') = ustb v (w_ust w) + (if caller =? v then r else 0).
Proof.
  intros Hv [->|n w2 Hr _ D]; [by destruct (caller =? v); rewrite ?N.add_0_r|]. by eapply issue_balance.
Qed.

Lemma maybe_log caller r w w' v :
  ust_maybe caller r w w' -> egld_sent v w' = egld_sent v w.
Proof.
  intros [->|n w2 Hr _ D]; [done|]. apply ust_issue_frame in D as (? & ? & ? & ? & ->).
  unfold egld_sent. cbn. rewrite map_app, sumN_app. cbn. lia.
Qed.

Lemma egld_sent_paid u v i w :
  w_log w = [] -> egld_sent v (egld_paid u i w) = if u =? v then i else 0.
Proof.
  intros Hl. rewrite egld_paid_eq. unfold egld_sent. cbn. rewrite Hl. cbn.
  destruct (0 <? i) eqn:B; cbn; destruct (u =? v); lia.
Qed.

Lemma undelegate_effects w u eg pays :
  snd (step w (OTx u eg pays UnDelegate)) = SOk ->
  let c := w_pool w in let w' := fst (step w (OTx u eg pays UnDelegate)) in
  exists x, let e := redeemed x c in let i := fst (split_of (pend c) e) in let r := snd (split_of (pend c) e) in
  pays = [Pay TokLs x] /\ eg = 0 /\ u <> SELF /\ 0 < x /\ x <= supply c /\ 0 < e /\ e <= reserve c
  /\ x <= ls_balance u w
  /\ (forall v, ls_balance v w' = ls_balance v w - (if v =? u then x else 0))
  /\ (forall v, v <> SELF -> ust_balance v w' = ust_balance v w + (if u =? v then r else 0))
  /\ (forall v, egld_sent v w' = if u =? v then i else 0)
  /\ w_pool w' = undelegate_pool x c /\ w_egld w' = w_egld w - i
  /\ rest_unchanged w w' /\ (r = 0 -> ust_unchanged w w').
Proof.
  intros H. apply undelegate_done in H as (x & w3 & -> & -> & Hu & _ & _ & Hx & Hs & He & Hr & Hb & Hi & _ & Hm & Hw).
  cbv zeta in *. exists x.
  assert (HB := fun v Hv => maybe_balance _ _ _ _ v Hv Hm).
  assert (HL := fun v => maybe_log _ _ _ _ v Hm).
  rewrite Hw. clear Hw. split_and!; try done.
  - intros v. unfold ls_balance. clear HB HL. rewrite egld_paid_eq in Hm. apply ust_maybe_frame in Hm as (? & ? & ? & ? & ? & ->).
    cbn. rewrite !amt_insert. unfold lbal. destruct (N.eqb_spec v u) as [->|Hv]; repeat case_decide; subst; try done; lia.
  - intros v Hv. specialize (HB v Hv). rewrite egld_paid_eq in HB. exact HB.
  - intros v. specialize (HL v). rewrite egld_sent_paid in HL by done.
    rewrite <- HL. unfold egld_sent. cbn. rewrite map_app, sumN_app. cbn. lia.
  - clear HB HL. rewrite egld_paid_eq in Hm. by apply ust_maybe_frame in Hm as (? & ? & ? & ? & ? & ->).
  - clear HB HL. rewrite egld_paid_eq in Hm. by apply ust_maybe_frame in Hm as (? & ? & ? & ? & ? & ->).
  - intros Hr0. destruct Hm as [_|n w2 Hr1 _ _]; [|lia]. rewrite egld_paid_eq. done.
Qed.

Lemma payout w u eg x :
  snd (step w (OTx u eg [Pay TokLs x] UnDelegate)) = SOk ->
  paid_out u w (fst (step w (OTx u eg [Pay TokLs x] UnDelegate))) = redeemed x (w_pool w).
Proof.
  intros H. apply undelegate_effects in H as (x' & [= <-] & _ & Hu & _ & _ & _ & _ & _ & _ & H1 & H2 & _).
  unfold paid_out. rewrite H1, H2, N.eqb_refl by done.
  pose proof (split_facts (pend (w_pool w)) (redeemed x (w_pool w))) as Hs. cbv zeta in Hs. lia.
Qed.

(** * Rounding *)
Lemma floor_lt a s r : 0 < r -> a * s < (a * s / r + 1) * r.
Proof. intros Hr. pose proof (N.div_mod (a * s) r) as H. pose proof (N.mod_lt (a * s) r) as H1. nia. Qed.

Lemma mint_exact w u a pays :
  Reachable w -> snd (step w (OTx u a pays Delegate)) = SOk ->
  let w' := fst (step w (OTx u a pays Delegate)) in
  exists m, ls_balance u w' = ls_balance u w + m /\ 0 < m
  /\ m * virtual_reserve w <= a * ls_supply w
  /\ (0 < virtual_reserve w -> a * ls_supply w < (m + 1) * virtual_reserve w)
  /\ (virtual_reserve w = 0 -> m = a)
  /\ ls_supply w' = ls_supply w + m /\ virtual_reserve w' = virtual_reserve w + a.
Proof.
  intros Hr H. pose proof (acct w Hr) as [_ _ HP].
  pose proof (delegate_done _ _ _ _ H) as (_ & _ & _ & _ & _ & Hm & _).
  apply delegate_effects in H as (H1 & H2 & _). cbv zeta in *.
  exists (minted a (w_pool w)). specialize (H1 u). rewrite N.eqb_refl in H1.
  unfold ls_supply, virtual_reserve. rewrite H2. cbn. split_and!; try done.
  - by apply mint_floor.
  - intros Hv. unfold minted. destruct (0 <? reserve (w_pool w)) eqn:B; [|lia]. by apply floor_lt.
  - intros Hv. unfold minted. rewrite Hv. done.
Qed.

Lemma redeem_exact w u eg x :
  snd (step w (OTx u eg [Pay TokLs x] UnDelegate)) = SOk ->
  let w' := fst (step w (OTx u eg [Pay TokLs x] UnDelegate)) in
  let e := paid_out u w w' in
  0 < e /\ e * ls_supply w <= x * virtual_reserve w < (e + 1) * ls_supply w
  /\ ls_supply w' + x = ls_supply w /\ virtual_reserve w' + e = virtual_reserve w
  /\ ls_balance u w' + x = ls_balance u w.
Proof.
  intros H. cbv zeta. rewrite (payout _ _ _ _ H).
  apply undelegate_effects in H as (x' & [= <-] & _ & _ & Hx & Hs & He & Hv & Hb & H1 & _ & _ & H2 & _).
  specialize (H1 u). rewrite N.eqb_refl in H1. rewrite H1.
  unfold ls_supply, virtual_reserve. rewrite H2. cbn. split_and!; try lia.
  - apply redeem_floor.
  - unfold redeemed. apply floor_lt. lia.
Qed.

(** * Splitting *)
Definition mintf (a s r : N) : N := if 0 <? r then a * s / r else a.
Definition redf (x s r : N) : N := x * r / s.

Lemma mintf_two a b s r :
  s <= r -> mintf a s r + mintf b (s + mintf a s r) (r + a) <= mintf (a + b) s r.
Proof.
  intros Hs. unfold mintf. destruct (0 <? r) eqn:B.
  - destruct (0 <? r + a) eqn:B1; [|lia].
    set (m1 := a * s / r). set (m2 := b * (s + m1) / (r + a)).
    assert (H1 : r * m1 <= a * s) by (apply N.mul_div_le; lia).
    assert (H2 : (r + a) * m2 <= b * (s + m1)) by (apply N.mul_div_le; lia).
    apply N.div_le_lower_bound; [lia|].
    assert (H3 : r * m2 <= b * s).
    { apply (N.mul_le_mono_pos_l _ _ (r + a)); [lia|]. nia. }
    lia.
  - assert (r = 0) as -> by lia. assert (s = 0) as -> by lia.
    destruct (0 <? 0 + a) eqn:B1.
    + replace (0 + a) with a by lia. rewrite N.div_mul by lia. lia.
    + lia.
Qed.

Fixpoint mints (l : list N) (s r : N) : N :=
  match l with [] => 0 | a :: k => mintf a s r + mints k (s + mintf a s r) (r + a) end.

Lemma mintf_le a s r : s <= r -> mintf a s r <= a.
Proof. intros H. unfold mintf. destruct (0 <? r) eqn:B; [|lia]. apply N.div_le_upper_bound; [lia|]. nia. Qed.

Lemma mints_le l s r : s <= r -> mints l s r <= mintf (sumN l) s r.
Proof.
  revert s r. induction l as [|a l IH]; intros s r Hs; [cbn; lia|]. cbn [mints sumN].
  pose proof (mintf_le a s r Hs). pose proof (mintf_two a (sumN l) s r Hs).
  specialize (IH (s + mintf a s r) (r + a) ltac:(lia)). lia.
Qed.

Lemma redf_two x y s r :
  x + y <= s -> redf x s r + redf y (s - x) (r - redf x s r) <= redf (x + y) s r.
Proof.
  intros Hs. unfold redf. destruct (N.eqb_spec s 0) as [->|Hn].
  { assert (x = 0) as -> by lia. assert (y = 0) as -> by lia. rewrite !N.mul_0_l, !Ndiv0. done. }
  set (e1 := x * r / s).
  assert (H1 : s * e1 <= x * r) by (apply N.mul_div_le; lia).
  destruct (N.eqb_spec y 0) as [->|Hy].
  { replace (x + 0) with x by lia. fold e1. change (e1 + 0 <= e1). lia. }
  set (e2 := y * (r - e1) / (s - x)).
  assert (H2 : (s - x) * e2 <= y * (r - e1)) by (apply N.mul_div_le; lia).
  apply N.div_le_lower_bound; [lia|].
  assert (Hr : e1 <= r) by nia.
  clearbody e1 e2.
  assert (exists z, s = x + (y + z)) as [z ->] by (exists (s - x - y); lia).
  assert (exists q, r = e1 + q) as [q ->] by (exists (r - e1); lia).
  replace (x + (y + z) - x) with (y + z) in H2 by lia. replace (e1 + q - e1) with q in H2 by lia.
  assert (H3 : (y + z) * e1 <= x * q) by nia.
  apply (N.mul_le_mono_pos_l _ _ (y + z)); [lia|].
  assert (H4 : (y + z) * e1 * z <= x * q * z) by (by apply N.mul_le_mono_r).
  assert (H5 : (x + (y + z)) * ((y + z) * e2) <= (x + (y + z)) * (y * q)) by (by apply N.mul_le_mono_l).
  nia.
Qed.

Fixpoint reds (l : list N) (s r : N) : N :=
  match l with [] => 0 | x :: k => redf x s r + reds k (s - x) (r - redf x s r) end.

Lemma reds_le l s r : sumN l <= s -> reds l s r <= redf (sumN l) s r.
Proof.
  revert s r. induction l as [|x l IH]; intros s r Hs; [cbn [reds]; lia|]. cbn [reds sumN] in *.
  pose proof (redf_two x (sumN l) s r Hs).
  specialize (IH (s - x) (r - redf x s r) ltac:(lia)). lia.
Qed.

Lemma deposits_run w u l :
  Reachable w -> Forall (eq SOk) (statuses w (map (fun a => OTx u a [] Delegate) l)) ->
  ls_balance u (run w (map (fun a => OTx u a [] Delegate) l)) = ls_balance u w + mints l (ls_supply w) (virtual_reserve w).
Proof.
  revert w. induction l as [|a l IH]; intros w Hr HF; [cbn; lia|].
  cbn [map run statuses mints] in *. pose proof (Forall_inv HF) as H. apply Forall_inv_tail in HF. symmetry in H.
  rewrite IH; [|by apply reach_step|done].
  apply delegate_effects in H as (H1 & H2 & _). cbv zeta in *. rewrite H1, N.eqb_refl.
  unfold ls_supply, virtual_reserve. rewrite H2. cbn [delegate_pool pool_plus supply reserve set_reserve set_supply].
  change (minted a _) with (mintf a (supply (w_pool w)) (reserve (w_pool w))). lia.
Qed.

Lemma redeems_run w u l :
  Forall (eq SOk) (statuses w (map (fun x => OTx u 0 [Pay TokLs x] UnDelegate) l)) -> u <> SELF ->
  egld_received u w (map (fun x => OTx u 0 [Pay TokLs x] UnDelegate) l)
  + ust_balance u (run w (map (fun x => OTx u 0 [Pay TokLs x] UnDelegate) l))
  = ust_balance u w + reds l (ls_supply w) (virtual_reserve w)
  /\ sumN l <= ls_supply w.
Proof.
  revert w. induction l as [|x l IH]; intros w HF Hu; [cbn; lia|].
  cbn [map run statuses reds egld_received sumN] in *. pose proof (Forall_inv HF) as H. apply Forall_inv_tail in HF. symmetry in H.
  destruct (IH _ HF Hu) as [I1 I2]. clear IH.
  apply undelegate_effects in H as (x' & [= <-] & _ & _ & Hx & Hs & He & Hv & Hb & H1 & H2 & H3 & H4 & _).
  revert I1 I2. unfold ls_supply, virtual_reserve. rewrite H4, H3, N.eqb_refl. rewrite (H2 u Hu), N.eqb_refl.
  cbn [undelegate_pool supply reserve]. change (redeemed x (w_pool w)) with (redf x (supply (w_pool w)) (reserve (w_pool w))).
  pose proof (split_facts (pend (w_pool w)) (redf x (supply (w_pool w)) (reserve (w_pool w)))) as HS. cbv zeta in HS.
  lia.
Qed.

Lemma split_deposits w u l :
  Reachable w -> Forall (eq SOk) (statuses w (map (fun a => OTx u a [] Delegate) l)) ->
  snd (step w (OTx u (sumN l) [] Delegate)) = SOk ->
  ls_balance u (run w (map (fun a => OTx u a [] Delegate) l))
  <= ls_balance u (fst (step w (OTx u (sumN l) [] Delegate))).
Proof.
  intros Hr HF H. pose proof (acct w Hr) as [_ _ HP]. rewrite deposits_run by done.
  apply delegate_effects in H as (H1 & _). rewrite H1, N.eqb_refl.
  pose proof (mints_le l (ls_supply w) (virtual_reserve w) HP).
  change (minted (sumN l) (w_pool w)) with (mintf (sumN l) (ls_supply w) (virtual_reserve w)). lia.
Qed.

Lemma split_redeems w u l :
  Forall (eq SOk) (statuses w (map (fun x => OTx u 0 [Pay TokLs x] UnDelegate) l)) ->
  snd (step w (OTx u 0 [Pay TokLs (sumN l)] UnDelegate)) = SOk ->
  egld_received u w (map (fun x => OTx u 0 [Pay TokLs x] UnDelegate) l)
  + ust_balance u (run w (map (fun x => OTx u 0 [Pay TokLs x] UnDelegate) l))
  <= egld_sent u (fst (step w (OTx u 0 [Pay TokLs (sumN l)] UnDelegate)))
     + ust_balance u (fst (step w (OTx u 0 [Pay TokLs (sumN l)] UnDelegate))).
Proof.
  intros HF H. apply undelegate_effects in H as (x' & [= <-] & _ & Hu & Hx & Hs & He & Hv & Hb & H1 & H2 & H3 & H4 & _).
  destruct (redeems_run w u l HF Hu) as [-> Hl]. rewrite H3, (H2 u Hu), N.eqb_refl.
  pose proof (reds_le l (ls_supply w) (virtual_reserve w) Hl) as HR.
  change (redeemed (sumN l) (w_pool w)) with (redf (sumN l) (ls_supply w) (virtual_reserve w)).
  pose proof (split_facts (pend (w_pool w)) (redf (sumN l) (ls_supply w) (virtual_reserve w))) as HS. cbv zeta in HS.
  lia.
Qed.

(** * Round trip, quotes, full exit *)
Lemma round_trip w u a pays :
  let w1 := fst (step w (OTx u a pays Delegate)) in
  let m := ls_balance u w1 - ls_balance u w in
  let o2 := OTx u 0 [Pay TokLs m] UnDelegate in
  Reachable w -> snd (step w (OTx u a pays Delegate)) = SOk -> snd (step w1 o2) = SOk ->
  paid_out u w1 (fst (step w1 o2)) <= a.
Proof.
  cbv zeta. intros Hr H1 H2. rewrite (payout _ _ _ _ H2).
  pose proof (acct w Hr) as [_ _ HP].
  apply delegate_effects in H1 as (K1 & K2 & _). cbv zeta in K1, K2. rewrite K1, N.eqb_refl, K2.
  replace (ls_balance u w + minted a (w_pool w) - ls_balance u w) with (minted a (w_pool w)) by lia.
  unfold redeemed. rewrite delegate_pool_eq. cbn [supply reserve].
  pose proof (mint_floor a (w_pool w) HP) as Hm. set (m := minted a (w_pool w)) in *.
  destruct (N.eqb_spec (supply (w_pool w) + m) 0) as [->|H0]; [rewrite Ndiv0; lia|].
  apply N.div_le_upper_bound; [done|]. nia.
Qed.

Lemma view_ls_value_inv x w e :
  view_ls_value x w = Ok e -> c_lstok (w_cfg w) = TIssued /\ x <= ls_supply w /\ 0 < e /\ e = redeemed x (w_pool w).
Proof.
  unfold view_ls_value. intros H. apply rbind_ok in H as [c [E H]]. apply cache_new_ok in E as [E ->].
  apply get_egld_amount_inv in H. intuition.
Qed.

Lemma view_ls_value_ok x w :
  c_lstok (w_cfg w) = TIssued -> x <= ls_supply w -> 0 < redeemed x (w_pool w) -> view_ls_value x w = Ok (redeemed x (w_pool w)).
Proof.
  intros H1 H2 H3. unfold view_ls_value, cache_new, ls_token_id. rewrite H1. cbn [rbind]. by apply get_egld_amount_ok.
Qed.

Lemma view_egld_value_inv a w m :
  view_egld_value a w = Ok m -> c_lstok (w_cfg w) = TIssued /\ 0 < m /\ m = minted a (w_pool w).
Proof.
  unfold view_egld_value. intros H. apply rbind_ok in H as [c [E H]]. apply cache_new_ok in E as [E ->].
  apply get_ls_amount_inv in H. intuition.
Qed.

Lemma view_egld_value_ok a w :
  c_lstok (w_cfg w) = TIssued -> 0 < minted a (w_pool w) -> view_egld_value a w = Ok (minted a (w_pool w)).
Proof.
  intros H1 H3. unfold view_egld_value, cache_new, ls_token_id. rewrite H1. cbn [rbind]. by apply get_ls_amount_ok.
Qed.

Lemma deposit_quote w u a pays :
  snd (step w (OTx u a pays Delegate)) = SOk ->
  exists m, view_egld_value a w = Ok m
  /\ ls_balance u (fst (step w (OTx u a pays Delegate))) = ls_balance u w + m.
Proof.
  intros H. pose proof (delegate_done _ _ _ _ H) as (_ & _ & H1 & _ & _ & H2 & _).
  apply delegate_effects in H as (H3 & _). exists (minted a (w_pool w)). split; [by apply view_egld_value_ok|].
  rewrite H3, N.eqb_refl. done.
Qed.

Lemma redeem_quote w u eg x :
  snd (step w (OTx u eg [Pay TokLs x] UnDelegate)) = SOk ->
  view_ls_value x w = Ok (paid_out u w (fst (step w (OTx u eg [Pay TokLs x] UnDelegate)))).
Proof.
  intros H. rewrite (payout _ _ _ _ H).
  apply undelegate_done in H as (x' & w3 & [= <-] & _ & _ & H1 & _ & _ & H2 & H3 & _). by apply view_ls_value_ok.
Qed.

Lemma full_exit w u eg :
  let o := OTx u eg [Pay TokLs (ls_supply w)] UnDelegate in
  let w' := fst (step w o) in
  snd (step w o) = SOk ->
  paid_out u w w' = virtual_reserve w /\ virtual_reserve w' = 0 /\ ls_supply w' = 0.
Proof.
  cbv zeta. intros H. pose proof (redeem_exact _ _ _ _ H) as H1. cbv zeta in H1.
  destruct H1 as (_ & [H1 H2] & H3 & H4 & _).
  apply undelegate_effects in H as (x' & [= <-] & _ & _ & Hx & _).
  set (e := paid_out _ _ _) in *. assert (e = virtual_reserve w) by nia. lia.
Qed.

Lemma quotes_sum w xs es :
  Forall2 (fun x e => view_ls_value x w = Ok e) xs es -> sumN xs <= ls_supply w -> sumN es <= virtual_reserve w.
Proof.
  intros HF Hs.
  assert (H : sumN es * ls_supply w <= sumN xs * virtual_reserve w).
  { clear Hs. induction HF as [|x e xs es Hx HF IH]; cbn [sumN]; [lia|].
    apply view_ls_value_inv in Hx as (_ & _ & _ & ->). pose proof (redeem_floor x (w_pool w)).
    unfold ls_supply, virtual_reserve in *. nia. }
  destruct HF as [|x e xs es Hx HF]; [cbn; lia|].
  apply view_ls_value_inv in Hx as (_ & Hx & He & ->).
  assert (0 < ls_supply w).
  { unfold ls_supply in *. destruct (N.eqb_spec (supply (w_pool w)) 0) as [E|E]; [|lia].
    unfold redeemed in He. rewrite E, Ndiv0 in He. lia. }
  nia.
Qed.

(** * getExchangeRate *)
Lemma rate_eq w :
  view_exchange_rate w = Ok (if ls_supply w =? 0 then 10 ^ 18 else 10 ^ 18 * virtual_reserve w / ls_supply w).
Proof.
  unfold view_exchange_rate. fold (ls_supply w) (virtual_reserve w).
  change INITIAL_EXCHANGE_RATE with (10 ^ 18). destruct (ls_supply w =? 0) eqn:B; [done|].
  rewrite div_nz by lia. by rewrite (N.mul_comm (10 ^ 18)).
Qed.

Lemma rate_min w q : Reachable w -> view_exchange_rate w = Ok q -> 10 ^ 18 <= q.
Proof.
  intros Hr. rewrite rate_eq. intros [= <-]. pose proof (acct w Hr) as [_ _ HP].
  destruct (ls_supply w =? 0) eqn:B; [lia|]. apply N.div_le_lower_bound; [lia|].
  unfold ls_supply, virtual_reserve. rewrite N.mul_comm. by apply N.mul_le_mono_l.
Qed.

Lemma rate_mono w os q q' :
  Reachable w -> always (fun v => 0 < ls_supply v) w os ->
  view_exchange_rate w = Ok q -> view_exchange_rate (run w os) = Ok q' -> q <= q'.
Proof.
  intros Hr Ha. rewrite !rate_eq. intros [= <-] [= <-].
  assert (H0 : 0 < ls_supply w) by (destruct os; apply Ha).
  assert (H1 : 0 < ls_supply (run w os)).
  { clear -Ha. revert w Ha. induction os as [|o os IH]; intros w [H Ha]; [done|]. cbn [run]. by apply IH. }
  pose proof (rate_history w os Hr Ha) as H.
  destruct (ls_supply w =? 0) eqn:B; [lia|]. destruct (ls_supply (run w os) =? 0) eqn:B1; [lia|].
  set (K := 10 ^ 18). set (r := virtual_reserve w) in *. set (s := ls_supply w) in *.
  set (r' := virtual_reserve (run w os)) in *. set (s' := ls_supply (run w os)) in *. clearbody K r s r' s'.
  apply N.div_le_lower_bound; [lia|].
  pose proof (N.mul_div_le (K * r) s ltac:(lia)) as Hd. set (q := K * r / s) in *. clearbody q.
  apply (N.mul_le_mono_pos_l _ _ s); [done|]. nia.
Qed.
