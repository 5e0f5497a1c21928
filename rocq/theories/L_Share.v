(** L_Share.v — rewards are shared in proportion. *)
From Verif Require Import L_Pool L_More L_User L_Batch.
From Verif Require Export Spec10.

Lemma reward_effect w o p :
  adds_reward w o p -> snd (step w o) = SOk ->
  let w' := fst (step w o) in
  virtual_reserve w' = virtual_reserve w + p /\ ls_supply w' = ls_supply w /\ w_ls w' = w_ls w /\ ust_unchanged w w'
  /\ w_cfg w' = w_cfg w.
Proof.
  intros [(i & l & v & -> & Hn & ->)|(u & ->)] Hs; cbv zeta.
  - destruct (cb_claim w i l v Hn Hs) as (_ & _ & _ & H1 & _ & H2 & _ & _ & _ & _ & _ & _ & _ & _ & (H3 & H4) & H5 & _). done.
  - destruct (add_rewards_done w u p [] Hs) as (_ & H1 & _ & _ & H2 & _ & _ & _ & _ & H3 & H4 & H5). split_and!; try done; try apply H4; try apply H5.
Qed.

Lemma div_add_bounds a b c : 0 < c -> a / c + b / c <= (a + b) / c <= a / c + b / c + 1.
Proof.
  intros Hc. pose proof (N.div_mod a c ltac:(lia)). pose proof (N.div_mod b c ltac:(lia)).
  pose proof (N.mod_lt a c ltac:(lia)). pose proof (N.mod_lt b c ltac:(lia)). split.
  - apply N.div_le_lower_bound; nia.
  - apply N.lt_succ_r. apply N.div_lt_upper_bound; nia.
Qed.

Lemma reward_proportional w o p x :
  adds_reward w o p -> snd (step w o) = SOk -> 0 < ls_supply w ->
  let w' := fst (step w o) in
  (forall u, ls_balance u w' = ls_balance u w)
  /\ egld_worth w x + x * p / ls_supply w <= egld_worth w' x <= egld_worth w x + x * p / ls_supply w + 1.
Proof.
  intros Ha Hs Hp w'. destruct (reward_effect w o p Ha Hs) as (H1 & H2 & H3 & _). fold w' in H1, H2, H3. split.
  - intros u. unfold ls_balance. by rewrite H3.
  - unfold egld_worth. rewrite H1, H2, N.mul_add_distr_l. by apply div_add_bounds.
Qed.

Lemma late_deposit w u a pays o p :
  let w1 := fst (step w (OTx u a pays Delegate)) in
  let m := ls_balance u w1 - ls_balance u w in
  let w2 := fst (step w1 o) in
  let w3 := fst (step w2 (OTx u 0 [Pay TokLs m] UnDelegate)) in
  Reachable w -> 0 < ls_supply w -> snd (step w (OTx u a pays Delegate)) = SOk ->
  adds_reward w1 o p -> snd (step w1 o) = SOk -> snd (step w2 (OTx u 0 [Pay TokLs m] UnDelegate)) = SOk ->
  let e := paid_out u w2 w3 in let R := virtual_reserve w in
  e * (R + a) <= a * (R + a + p)
  /\ forall y, y * R * (R + a + p) <= (egld_worth w3 y + 1) * ls_supply w * (R + a).
Proof.
  cbv zeta. intros Hr HS H1 Ha H2 H3.
  pose proof (acct w Hr) as [_ _ HP].
  apply delegate_effects in H1 as (K1 & K2 & _). cbv zeta in K1, K2.
  set (w1 := fst (step w (OTx u a pays Delegate))) in *.
  assert (Em : ls_balance u w1 - ls_balance u w = minted a (w_pool w)) by (rewrite K1, N.eqb_refl; lia).
  rewrite Em in *. pose proof (mint_floor a (w_pool w) HP) as Hm. set (m := minted a (w_pool w)) in *.
  destruct (reward_effect w1 o p Ha H2) as (R1 & R2 & _). cbv zeta in R1, R2. set (w2 := fst (step w1 o)) in *.
  rewrite (payout _ _ _ _ H3).
  destruct (undelegate_effects w2 u 0 _ H3) as (x & Ex & _ & _ & _ & B1 & B2 & B3 & _ & _ & _ & _ & U & _).
  injection Ex as <-. set (w3 := fst (step w2 (OTx u 0 [Pay TokLs m] UnDelegate))) in *.
  assert (E1 : ls_supply w1 = ls_supply w + m /\ virtual_reserve w1 = virtual_reserve w + a).
  { unfold ls_supply, virtual_reserve. rewrite K2, delegate_pool_eq. done. }
  destruct E1 as [E1 E2]. set (e := redeemed m (w_pool w2)) in *.
  assert (E3 : ls_supply w3 = ls_supply w2 - m /\ virtual_reserve w3 = virtual_reserve w2 - e).
  { unfold ls_supply, virtual_reserve. rewrite U. done. }
  destruct E3 as [E3 E4].
  assert (He : e * (ls_supply w + m) <= m * (virtual_reserve w + a + p)).
  { unfold e, redeemed. fold (ls_supply w2) (virtual_reserve w2). rewrite R1, R2, E1, E2.
    rewrite N.mul_comm. apply N.mul_div_le. lia. }
  change (reserve (w_pool w2)) with (virtual_reserve w2) in B3.
  fold (ls_supply w) (virtual_reserve w) in Hm.
  assert (X : e * (virtual_reserve w + a) <= a * (virtual_reserve w + a + p)).
  { set (S := ls_supply w) in *. set (R := virtual_reserve w) in *.
    assert (m * (R + a) <= a * (S + m)) by nia.
    apply (N.mul_le_mono_pos_r _ _ (S + m)); [lia|].
    transitivity (m * (R + a + p) * (R + a)); nia. }
  split; [exact X|]. intros y. unfold egld_worth. rewrite E3, E4, R1, R2, E1, E2.
  rewrite E2 in R1. rewrite R1 in B3.
  replace (ls_supply w + m - m) with (ls_supply w) by lia.
  set (S := ls_supply w) in *. set (R := virtual_reserve w) in *. set (Q := R + a + p - e).
  assert (HQ : R * (R + a + p) <= Q * (R + a)) by (unfold Q; nia).
  pose proof (N.div_mod (y * Q) S ltac:(lia)). pose proof (N.mod_lt (y * Q) S ltac:(lia)).
  assert (y * Q <= (y * Q / S + 1) * S) by nia.
  transitivity (y * (Q * (R + a))); nia.
Qed.
