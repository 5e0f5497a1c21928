(** L_Earn.v — the price of a share is what the gains of the history come to per share,
    up to the rounding of the trades. *)
From Coq Require Import Lqa.
From Verif Require Export Spec23 L_Vault.

Lemma q_add a b : (q (a + b) == q a + q b)%Q.
Proof. unfold q. rewrite N2Z.inj_add, inject_Z_plus. reflexivity. Qed.
Lemma q_mul a b : (q (a * b) == q a * q b)%Q.
Proof. unfold q. rewrite N2Z.inj_mul, inject_Z_mult. reflexivity. Qed.
Lemma q_sub a b : b <= a -> (q (a - b) == q a - q b)%Q.
Proof. intros H. unfold q. rewrite N2Z.inj_sub by done. unfold Zminus. rewrite inject_Z_plus, inject_Z_opp. reflexivity. Qed.
Lemma q_le a b : a <= b -> (q a <= q b)%Q.
Proof. intros H. unfold q. rewrite <- Zle_Qle. lia. Qed.
Lemma q_pos a : 0 < a -> (0 < q a)%Q.
Proof. intros H. unfold q. change 0%Q with (inject_Z 0). rewrite <- Zlt_Qlt. lia. Qed.
Lemma q_nonneg a : (0 <= q a)%Q.
Proof. apply (q_le 0). lia. Qed.

(** ** One trade *)
Lemma buy_price S R a : 0 < S -> 0 < R ->
  let m := a * S / R in let p := (q R / q S)%Q in
  (p <= q (R + a) / q (S + m) <= p + p / q (S + m))%Q.
Proof.
  intros HS HR m p.
  pose proof (q_pos S HS) as Ps. pose proof (q_pos R HR) as Pr. assert (Ps' : (0 < q (S + m))%Q) by (apply q_pos; lia).
  assert (Hp : (p * q S == q R)%Q) by (unfold p; field; intros E; rewrite E in Ps; lra).
  assert (H1 : m * R <= a * S) by (unfold m; rewrite N.mul_comm; apply N.mul_div_le; lia).
  assert (H2 : a * S <= (m + 1) * R).
  { unfold m. pose proof (N.mul_succ_div_gt (a * S) R ltac:(lia)). lia. }
  apply q_le in H1, H2. rewrite !q_mul in H1, H2. rewrite q_add in H2.
  assert (K1 : (p * q m <= q a)%Q).
  { apply (Qmult_le_r _ _ (q S) Ps). eapply Qle_trans; [|exact H1]. rewrite <- Hp. apply Qle_lteq. right. ring. }
  assert (K2 : (q a <= p * q m + p)%Q).
  { apply (Qmult_le_r _ _ (q S) Ps). eapply Qle_trans; [exact H2|]. change (q 1) with 1%Q. rewrite <- Hp. apply Qle_lteq. right. ring. }
  split.
  - apply Qle_shift_div_l; [exact Ps'|]. rewrite !q_add. ring_simplify. rewrite Hp. lra.
  - apply Qle_shift_div_r; [exact Ps'|].
    assert (E : ((p + p / q (S + m)) * q (S + m) == p * q (S + m) + p)%Q) by (field; intros E; rewrite E in Ps'; lra).
    rewrite E, !q_add. ring_simplify. rewrite Hp. lra.
Qed.

Lemma sell_price S R x : 0 < S -> x < S ->
  let e := x * R / S in let p := (q R / q S)%Q in
  (p <= q (R - e) / q (S - x) <= p + 1 / q (S - x))%Q.
Proof.
  intros HS Hx e p.
  pose proof (q_pos S HS) as Ps. assert (Ps' : (0 < q (S - x))%Q) by (apply q_pos; lia).
  assert (Hp : (p * q S == q R)%Q) by (unfold p; field; intros E; rewrite E in Ps; lra).
  assert (H1 : e * S <= x * R) by (unfold e; rewrite N.mul_comm; apply N.mul_div_le; lia).
  assert (H2 : x * R <= (e + 1) * S).
  { unfold e. pose proof (N.mul_succ_div_gt (x * R) S ltac:(lia)). lia. }
  assert (He : e <= R) by nia.
  apply q_le in H1, H2. rewrite !q_mul in H1, H2. rewrite q_add in H2. change (q 1) with 1%Q in H2.
  assert (K1 : (q e <= p * q x)%Q).
  { apply (Qmult_le_r _ _ (q S) Ps). eapply Qle_trans; [exact H1|]. rewrite <- Hp. apply Qle_lteq. right. ring. }
  assert (K2 : (p * q x <= q e + 1)%Q).
  { apply (Qmult_le_r _ _ (q S) Ps). eapply Qle_trans; [|exact H2]. rewrite <- Hp. apply Qle_lteq. right. ring. }
  split.
  - apply Qle_shift_div_l; [exact Ps'|]. rewrite !q_sub by lia. ring_simplify. rewrite Hp. lra.
  - apply Qle_shift_div_r; [exact Ps'|].
    assert (E : ((p + 1 / q (S - x)) * q (S - x) == p * q (S - x) + 1)%Q) by (field; intros E; rewrite E in Ps'; lra).
    rewrite E, !q_sub by lia. ring_simplify. rewrite Hp. lra.
Qed.

(** ** One action *)
Lemma means_short w o : means w o = [] \/ exists b, means w o = [b].
Proof.
  destruct o as [u eg pays ep|i out|i|d|f t x|n f t x|x|x|c x y|i]; cbn [means]; try (by left); try (by right; eexists).
  - destruct ep; try (by left); try (by right; eexists).
    destruct pays as [|[tk x] l]; [by left|]. destruct tk; [|by left..]. destruct l; [by right; eexists|by left].
  - destruct (nth_error (w_res w) i) as [[k r]|]; [|by left]. destruct k; try (by left); (destruct r; [by left|by right; eexists]).
Qed.
Definition gain_part (w : world) (o : op) : Q :=
  match booked w o with [VGain g] => (q g / q (ls_supply w))%Q | _ => 0%Q end.
Definition dust_part (w : world) (o : op) : Q :=
  match booked w o with
  | [VIn _ _] => (price w / q (ls_supply (fst (step w o))))%Q
  | [VOut _ _] => (1 / q (ls_supply (fst (step w o))))%Q
  | _ => 0%Q
  end.
Definition shown (w : world) : vault := Vault (ls_supply w) (virtual_reserve w) (fun u => ls_balance u w).
Lemma shown_shows w : shows w (shown w).
Proof. done. Qed.

Lemma earn_step w o : Reachable w -> 0 < ls_supply w -> 0 < ls_supply (fst (step w o)) ->
  (price w + gain_part w o <= price (fst (step w o)) <= price w + gain_part w o + dust_part w o)%Q.
Proof.
  intros Hr HS HS'. pose proof (proj1 (price_at_least_one w Hr)) as HR.
  pose proof (vault_step w o (shown w) (shown_shows w)) as (E1 & E2 & _).
  unfold gain_part, dust_part, price. change (match snd (step w o) with SOk => means w o | _ => [] end) with (booked w o) in *.
  assert (Hb : booked w o = [] \/ exists b, booked w o = [b]).
  { unfold booked. destruct (snd (step w o)); [apply means_short|by left..]. }
  remember (fst (step w o)) as w' eqn:Ew. clear Ew.
  destruct Hb as [E|[b E]]; rewrite E in *; cbn [fold_left] in *.
  - cbn [shown v_shares v_assets] in *. rewrite E1, E2. lra.
  - destruct b as [u a|u x|g|f t x]; cbn [book shown v_shares v_assets v_of] in *; unfold shares_for, assets_for in *; cbn [shown v_shares v_assets] in *.
    + destruct (N.eqb_spec (virtual_reserve w) 0) as [Z|Z]; [lia|]. rewrite E1, E2.
      pose proof (buy_price (ls_supply w) (virtual_reserve w) a HS ltac:(lia)) as H. cbv zeta in H. lra.
    + rewrite E1, E2. pose proof (sell_price (ls_supply w) (virtual_reserve w) x HS ltac:(lia)) as H. cbv zeta in H. lra.
    + rewrite E1, E2, q_add. assert (P : (0 < q (ls_supply w))%Q) by by apply q_pos.
      assert (K : ((q (virtual_reserve w) + q g) / q (ls_supply w) == q (virtual_reserve w) / q (ls_supply w) + q g / q (ls_supply w))%Q).
      { field. intros Z. rewrite Z in P. lra. }
      rewrite K. lra.
    + rewrite E1, E2. lra.
Qed.

(** ** Histories *)
Lemma earn_history w os : Reachable w -> always (fun v => 0 < ls_supply v) w os ->
  (price w + per_share w os <= price (run w os) <= price w + per_share w os + dust w os)%Q.
Proof.
  revert w. induction os as [|o os IH]; intros w Hr Ha; [cbn; lra|]. destruct Ha as [H0 Ha].
  assert (H1 : 0 < ls_supply (fst (step w o))) by (destruct os; destruct Ha; done).
  pose proof (earn_step w o Hr H0 H1) as [A B]. specialize (IH _ (reach_step w o Hr) Ha) as [C D].
  cbn [run per_share dust]. fold (gain_part w o) (dust_part w o). lra.
Qed.

Lemma price_grows w os : Reachable w -> always (fun v => 0 < ls_supply v) w os -> (price w <= price (run w os))%Q.
Proof.
  revert w. induction os as [|o os IH]; intros w Hr Ha; [cbn; lra|]. destruct Ha as [H0 Ha].
  assert (H1 : 0 < ls_supply (fst (step w o))) by (destruct os; destruct Ha; done).
  pose proof (earn_step w o Hr H0 H1) as [A _]. specialize (IH _ (reach_step w o Hr) Ha). cbn [run].
  assert (G : (0 <= gain_part w o)%Q).
  { unfold gain_part. destruct (booked w o) as [|[| |g|] [|]]; try lra. apply Qle_shift_div_l; [by apply q_pos|]. pose proof (q_nonneg g). lra. }
  lra.
Qed.
Lemma price_one w : Reachable w -> 0 < ls_supply w -> (1 <= price w)%Q.
Proof.
  intros Hr H. apply Qle_shift_div_l; [by apply q_pos|]. pose proof (q_le _ _ (proj1 (price_at_least_one w Hr))). lra.
Qed.
Lemma small_dust w os S : Reachable w -> 0 < S -> always (fun v => S <= ls_supply v) w os ->
  (dust w os <= q (trades w os) * price (run w os) / q S)%Q.
Proof.
  intros Hr HS. revert w Hr. induction os as [|o os IH]; intros w Hr Ha.
  { cbn [dust trades run]. apply Qle_shift_div_l; [by apply q_pos|]. assert (Hz : (q 0 == 0)%Q) by reflexivity. rewrite Hz. lra. }
  destruct Ha as [H0 Ha]. pose proof (q_pos S HS) as PS.
  assert (H1 : S <= ls_supply (fst (step w o))) by (destruct os; destruct Ha; done).
  assert (Hal : always (fun v => 0 < ls_supply v) (fst (step w o)) os).
  { clear -Ha HS. revert Ha. generalize (fst (step w o)). induction os as [|p os IH]; intros v [A B]; (split; [lia|]); [done|by apply IH]. }
  pose proof (reach_step w o Hr) as Hr'.
  specialize (IH _ Hr' Ha). cbn [run dust trades]. fold (dust_part w o).
  pose proof (price_grows _ _ Hr' Hal) as G. pose proof (price_one _ Hr' ltac:(lia)) as P1.
  pose proof (earn_step w o Hr ltac:(lia) ltac:(lia)) as [A _].
  assert (G0 : (0 <= gain_part w o)%Q).
  { unfold gain_part. destruct (booked w o) as [|[| |g|] [|]]; try lra. apply Qle_shift_div_l; [by apply q_pos; lia|]. pose proof (q_nonneg g). lra. }
  set (P := price (run (fst (step w o)) os)) in *.
  assert (D : forall y : Q, (0 <= y -> y <= P -> y / q (ls_supply (fst (step w o))) <= P / q S)%Q).
  { intros y Y0 Y. apply Qle_shift_div_l; [done|]. 
    assert (E : (y / q (ls_supply (fst (step w o))) * q S == y * q S / q (ls_supply (fst (step w o))))%Q) by (unfold Qdiv; ring).
    rewrite E. apply Qle_shift_div_r; [apply q_pos; lia|]. pose proof (q_le _ _ H1). nra. }
  assert (Z0 : (0 <= price w)%Q) by (pose proof (price_one w Hr ltac:(lia)); lra).
  assert (N0 : (0 <= P / q S)%Q) by (apply Qle_shift_div_l; [done|lra]).
  assert (F : forall t : N, (q (t + trades (fst (step w o)) os) * P / q S == q t * (P / q S) + q (trades (fst (step w o)) os) * P / q S)%Q).
  { intros t. rewrite q_add. unfold Qdiv. ring. }
  rewrite F. unfold dust_part. change (q 1) with 1%Q.
  assert (Hq0 : (q 0 == 0)%Q) by reflexivity. assert (Hq1 : (q 1 == 1)%Q) by reflexivity.
  destruct (booked w o) as [|[u a|u x|g|f t x] [|]]; rewrite ?Hq0, ?Hq1; try lra.
  - specialize (D (price w) Z0 ltac:(lra)). lra.
  - specialize (D 1%Q ltac:(lra) ltac:(lra)). lra.
Qed.

(** ** Somebody who just holds *)
Lemma held_step w o u : (forall b, In b (booked w o) -> ~ party u b) -> ls_balance u (fst (step w o)) = ls_balance u w.
Proof.
  intros H. pose proof (vault_step w o (shown w) (shown_shows w)) as (_ & _ & E). rewrite (E u).
  change (match snd (step w o) with SOk => means w o | _ => [] end) with (booked w o) in *.
  assert (Hb : booked w o = [] \/ exists b, booked w o = [b]).
  { unfold booked. destruct (snd (step w o)); [apply means_short|by left..]. }
  destruct Hb as [Eb|[b Eb]]; rewrite Eb in *; cbn [fold_left]; [done|]. specialize (H b (or_introl eq_refl)).
  destruct b as [z a|z x|g|f t x]; cbn [book v_of shown party] in *; unfold more_for, less_for; try done.
  - by rewrite (proj2 (N.eqb_neq u z)) by congruence.
  - by rewrite (proj2 (N.eqb_neq u z)) by congruence.
  - rewrite (proj2 (N.eqb_neq u t)) by (intros ->; tauto). by rewrite (proj2 (N.eqb_neq u f)) by (intros ->; tauto).
Qed.
Lemma held_history w os u : (forall b, In b (bookings w os) -> ~ party u b) -> ls_balance u (run w os) = ls_balance u w.
Proof.
  revert w. induction os as [|o os IH]; intros w H; [done|]. cbn [run bookings] in *. rewrite IH.
  - apply held_step. intros b Hb. apply H. apply in_or_app. by left.
  - intros b Hb. apply H. apply in_or_app. by right.
Qed.

Lemma worth_price w x : 0 < ls_supply w -> (q (egld_worth w x) <= q x * price w < q (egld_worth w x) + 1)%Q.
Proof.
  intros HS. pose proof (q_pos _ HS) as P. unfold price.
  assert (E : (q x * (q (virtual_reserve w) / q (ls_supply w)) == q (x * virtual_reserve w) / q (ls_supply w))%Q).
  { rewrite q_mul. unfold Qdiv. ring. }
  assert (H1 : egld_worth w x * ls_supply w <= x * virtual_reserve w).
  { unfold egld_worth. rewrite N.mul_comm. apply N.mul_div_le. lia. }
  assert (H2 : x * virtual_reserve w + 1 <= (egld_worth w x + 1) * ls_supply w).
  { unfold egld_worth. pose proof (N.mul_succ_div_gt (x * virtual_reserve w) (ls_supply w) ltac:(lia)). lia. }
  apply q_le in H1, H2. rewrite !q_mul in H1. rewrite (q_mul (_ + 1)), !q_add in H2. change (q 1) with 1%Q in H2. rewrite E. split.
  - apply Qle_shift_div_l; [done|]. rewrite q_mul. exact H1.
  - apply Qlt_shift_div_r; [done|]. lra.
Qed.
Lemma earn_holder w os u : Reachable w -> always (fun v => 0 < ls_supply v) w os ->
  (forall b, In b (bookings w os) -> ~ party u b) ->
  let x := ls_balance u w in
  ls_balance u (run w os) = x
  /\ (q (egld_worth w x) + q x * per_share w os < q (egld_worth (run w os) x) + 1)%Q
  /\ (q (egld_worth (run w os) x) < q (egld_worth w x) + 1 + q x * (per_share w os + dust w os))%Q.
Proof.
  intros Hr Ha Hp x. split; [by apply held_history|].
  pose proof (earn_history w os Hr Ha) as [A B]. pose proof (q_nonneg x) as X.
  assert (H0 : 0 < ls_supply w) by (destruct os; by destruct Ha).
  assert (H1 : 0 < ls_supply (run w os)).
  { clear -Ha. revert w Ha. induction os as [|o os IH]; intros w [H1 H2]; [done|]. by apply IH. }
  pose proof (worth_price w x H0) as [C D]. pose proof (worth_price (run w os) x H1) as [F G].
  assert (A' : (q x * price w + q x * per_share w os <= q x * price (run w os))%Q) by nra.
  assert (B' : (q x * price (run w os) <= q x * price w + q x * (per_share w os + dust w os))%Q) by nra.
  split; lra.
Qed.
