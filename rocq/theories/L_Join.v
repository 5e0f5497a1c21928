(** L_Join.v — withdrawals, donations of rewards and nominations made together or one
    after the other. *)
From Verif Require Export Spec9 L_Accept L_User.

Lemma same_trans p a b c : same p a b -> same p b c -> same p a c.
Proof. destruct p; cbn; try congruence; intros; destruct_and?; split_and?; congruence. Qed.
Lemma same_refl p a : same p a a.
Proof. by destruct p. Qed.

Lemma total_app a b : pay_total (a ++ b) = pay_total a + pay_total b.
Proof. unfold pay_total. rewrite map_app. induction (map y_amt a) as [|x r IH]; cbn; [done|]. unfold sumN in *. cbn. lia. Qed.
Lemma nonce_app n a b : pay_of_nonce n (a ++ b) = pay_of_nonce n a + pay_of_nonce n b.
Proof. unfold pay_of_nonce. rewrite map_app. induction (map _ a) as [|x r IH]; cbn; [done|]. unfold sumN in *. cbn. lia. Qed.

Lemma join_effect w u l :
  snd (step w (OTx u 0 l Withdraw)) = SOk ->
  let v := fst (step w (OTx u 0 l Withdraw)) in
  egld_sent u v = N.min (pay_total l) (total_withdrawn w) /\ total_withdrawn v = total_withdrawn w - egld_sent u v
  /\ w_cfg v = w_cfg w /\ w_epoch v = w_epoch w /\ w_attr v = w_attr w.
Proof.
  intros H v. pose proof (withdraw_effects w u 0 l H) as (E1 & _ & _ & _ & _ & _ & E2 & _ & _ & E3 & _ & (E4 & _ & _ & _ & E5 & _) & _).
  fold v in E1, E2, E3, E4, E5. split_and!; try done. unfold total_withdrawn at 1. by rewrite E2.
Qed.

Lemma join_iff w u l m : Reachable w ->
  snd (step w (OTx u 0 (l ++ m) Withdraw)) = SOk
  <-> snd (step w (OTx u 0 l Withdraw)) = SOk /\ snd (step (fst (step w (OTx u 0 l Withdraw))) (OTx u 0 m Withdraw)) = SOk.
Proof.
  intros Hr. set (v := fst (step w (OTx u 0 l Withdraw))).
  assert (Hv : Reachable v) by by apply reach_step.
  split.
  - intros H. assert (H1 : snd (step w (OTx u 0 l Withdraw)) = SOk).
    { apply (withdraw_full_iff w u 0) in H; [|done]. destruct H as (A & B & C & D & F & G & K & L).
      apply (withdraw_full_iff w u 0); [done|]. apply List.Forall_app in G as [G1 G2].
      split_and!; try done; [by left| |].
      - intros n. specialize (K n). rewrite nonce_app in K. lia.
      - destruct (decide (l = [])) as [->|Hl]; [by left|right]. destruct L as [L|L]; [by apply app_eq_nil in L as [-> _]|].
        destruct (decide (m = [])) as [->|Hm]; [by rewrite app_nil_r in L|]. rewrite removelast_app, total_app in L by done.
        pose proof (app_removelast_last (Pay TokLs 0) Hl) as El. rewrite El in L at 1. rewrite total_app in L. lia. }
    split; [exact H1|]. pose proof (join_effect w u l H1) as (E1 & E2 & E3 & E4 & E5). fold v in E1, E2, E3, E4, E5.
    pose proof (withdraw_tokens w u 0 l H1) as [_ ET]. fold v in ET.
    apply (withdraw_full_iff w u 0) in H; [|done]. destruct H as (A & B & C & D & F & G & K & L).
    apply (withdraw_full_iff v u 0); [done|]. rewrite E3, E4. apply List.Forall_app in G as [G1 G2].
    split_and!; try done; [by left| | |].
    + eapply List.Forall_impl; [|exact G2]. unfold release_epoch. by rewrite E5.
    + intros n. specialize (K n). rewrite nonce_app in K. specialize (ET n).
      destruct (decide (m = [])) as [->|Hm]; [cbn; lia|].
      destruct L as [L|L]; [by apply app_eq_nil in L as [_ ->]|]. rewrite removelast_app, total_app in L by done.
      assert (Z : match list.last l with Some (Pay (TokUst k) _) => if k =? n then pay_total l - total_withdrawn w else 0 | _ => 0 end = 0).
      { destruct (list.last l) as [[[] ?]|]; try done. destruct (_ =? n); lia. }
      rewrite Z in ET. lia.
    + destruct (decide (m = [])) as [->|Hm]; [by left|right].
      destruct L as [L|L]; [by apply app_eq_nil in L as [_ ->]|]. rewrite removelast_app, total_app in L by done. lia.
  - intros [H1 H2]. pose proof (join_effect w u l H1) as (E1 & E2 & E3 & E4 & E5). fold v in E1, E2, E3, E4, E5.
    pose proof (withdraw_tokens w u 0 l H1) as [_ ET]. fold v in ET.
    apply (withdraw_full_iff w u 0) in H1; [|done]. destruct H1 as (A & B & C & D & F & G & K & L).
    apply (withdraw_full_iff v u 0) in H2; [|done]. destruct H2 as (_ & _ & _ & _ & _ & G2 & K2 & L2).
    apply (withdraw_full_iff w u 0); [done|]. split_and!; try done; [by left| | |].
    + apply List.Forall_app. split; [done|]. rewrite E4 in G2. eapply List.Forall_impl; [|exact G2]. unfold release_epoch. by rewrite E5.
    + intros n. rewrite nonce_app. specialize (K n). specialize (K2 n). specialize (ET n).
      destruct L2 as [->|L2]; [cbn; lia|].
      assert (Z : match list.last l with Some (Pay (TokUst k) _) => if k =? n then pay_total l - total_withdrawn w else 0 | _ => 0 end = 0).
      { destruct (list.last l) as [[[] ?]|]; try done. destruct (_ =? n); lia. }
      rewrite Z in ET. lia.
    + destruct L2 as [->|L2]; [by rewrite app_nil_r|]. right.
      destruct (decide (m = [])) as [->|Hm].
      { rewrite app_nil_r. destruct L as [->|L]; [cbn in *; lia|done]. }
      rewrite removelast_app, total_app by done. lia.
Qed.

Lemma join_same w u l m : Reachable w ->
  let a := OTx u 0 l Withdraw in let b := OTx u 0 m Withdraw in let c := OTx u 0 (l ++ m) Withdraw in
  snd (step w c) = SOk ->
  egld_sent u (fst (step w c)) = egld_sent u (run w [a]) + egld_sent u (run w [a; b])
  /\ forall p, same p (run w [a; b]) (fst (step w c)).
Proof.
  intros Hr a b c Hc. pose proof Hc as Hab. apply join_iff in Hab as [Ha Hb]; [|done]. cbn [run].
  fold a in Ha, Hb. fold b in Hb.
  set (v := fst (step w a)) in *. set (x := fst (step v b)) in *. set (z := fst (step w c)) in *.
  pose proof (withdraw_effects w u 0 l Ha) as (A1 & A2 & A3 & A4 & A5 & A6 & A7 & A8 & A9 & A10 & A11 & (A12 & A13 & A14 & A15 & A16 & A17 & A18 & A19 & A20) & A21 & A22).
  pose proof (withdraw_effects v u 0 m Hb) as (B1 & B2 & B3 & B4 & B5 & B6 & B7 & B8 & B9 & B10 & B11 & (B12 & B13 & B14 & B15 & B16 & B17 & B18 & B19 & B20) & B21 & B22).
  pose proof (withdraw_effects w u 0 (l ++ m) Hc) as (C1 & C2 & C3 & C4 & C5 & C6 & C7 & C8 & C9 & C10 & C11 & (C12 & C13 & C14 & C15 & C16 & C17 & C18 & C19 & C20) & C21 & C22).
  pose proof (withdraw_tokens w u 0 l Ha) as [_ TA]. pose proof (withdraw_tokens v u 0 m Hb) as [_ TB].
  pose proof (withdraw_tokens w u 0 (l ++ m) Hc) as [_ TC].
  fold a v in A1, A2, A3, A4, A5, A6, A7, A8, A9, A10, A11, A12, A13, A14, A15, A16, A17, A18, A19, A20, TA.
  fold b x in B1, B2, B3, B4, B5, B6, B7, B8, B9, B10, B11, B12, B13, B14, B15, B16, B17, B18, B19, B20, TB.
  fold c z in C1, C2, C3, C4, C5, C6, C7, C8, C9, C10, C11, C12, C13, C14, C15, C16, C17, C18, C19, C20, TC.
  rewrite total_app in C1.
  assert (Hs : egld_sent u z = egld_sent u v + egld_sent u x) by lia.
  split; [exact Hs|].
  assert (Hp : w_pool z = w_pool x).
  { rewrite C7, B7, A7. assert (E : total_withdrawn w - egld_sent u z = total_withdrawn v - egld_sent u x) by lia. rewrite E. by destruct (w_pool w). }
  assert (HU : forall n y, ust_of n y z = ust_of n y x).
  { intros n y. destruct (decide (y = u)) as [->|Hy]; [|by rewrite C5, B5, A5].
    specialize (TA n). specialize (TB n). specialize (TC n). rewrite nonce_app in TC.
    destruct (decide (m = [])) as [->|Hm].
    - rewrite app_nil_r in TC. cbn [list.last] in TB. change (pay_of_nonce n []) with 0 in *. lia.
    - destruct C22 as [C22|C22]; [by apply app_eq_nil in C22 as [_ ?]|]. rewrite removelast_app, total_app in C22 by done.
      assert (Z : match list.last l with Some (Pay (TokUst k) _) => if k =? n then pay_total l - total_withdrawn w else 0 | _ => 0 end = 0).
      { destruct (list.last l) as [[[] ?]|]; try done. destruct (_ =? n); lia. }
      rewrite Z in TA. clear Z.
      assert (Hl : list.last (l ++ m) = list.last m).
      { destruct (list.last m) as [y|] eqn:Em; [|by apply list.last_None in Em]. apply list.last_Some in Em as [m' ->]. rewrite app_assoc. by rewrite list.last_snoc. }
      rewrite Hl, total_app in TC.
      destruct (list.last m) as [[[] ?]|]; try lia. destruct (_ =? n); lia. }
  assert (HL : forall y, ls_balance y z = ls_balance y x).
  { intros y. unfold ls_balance. by rewrite C8, B8, A8. }
  intros p. destruct p; cbn [same]; unfold ls_supply, virtual_reserve, fees_reserve, total_withdrawn, pending_egld, unstake_queue, unbonding, live_of;
    rewrite ?Hp, ?C12, ?B12, ?A12, ?C13, ?B13, ?A13, ?C14, ?B14, ?A14, ?C15, ?B15, ?A15, ?C16, ?B16, ?A16, ?C17, ?B17, ?A17, ?C18, ?B18, ?A18, ?C19, ?B19, ?A19, ?C20, ?B20, ?A20, ?C9, ?B9, ?A9, ?C10, ?B10, ?A10, ?C11, ?B11, ?A11; try done; auto.
  lia.
Qed.

Lemma join_each w u l : Reachable w -> l <> [] ->
  let os := map (fun p => OTx u 0 [p] Withdraw) l in let c := OTx u 0 l Withdraw in
  (snd (step w c) = SOk <-> Forall (eq SOk) (statuses w os))
  /\ (snd (step w c) = SOk -> egld_sent u (fst (step w c)) = egld_received u w os /\ forall p, same p (run w os) (fst (step w c))).
Proof.
  revert w. induction l as [|y l IH]; intros w Hr Hl; [done|]. cbv zeta. cbn [map statuses run egld_received].
  set (o := OTx u 0 [y] Withdraw). set (v := fst (step w o)).
  destruct (decide (l = [])) as [->|Hn].
  { cbn [map statuses run egld_received]. fold o v. split.
    - rewrite list.Forall_singleton. split; congruence.
    - intros _. split; [unfold v; lia|]. intros p. apply same_refl. }
  pose proof (join_iff w u [y] l Hr) as J. change ([y] ++ l) with (y :: l) in J. fold o in J. fold v in J.
  assert (Hv : Reachable v) by by apply reach_step.
  specialize (IH v Hv Hn) as [I1 I2]. cbv zeta in I1, I2.
  split.
  - rewrite J, I1. rewrite list.Forall_cons. split; intros [? ?]; split; congruence || done.
  - intros Hc. pose proof Hc as Hj. apply J in Hj as [Ha Hb]. specialize (I2 Hb) as [I2 I3].
    pose proof (join_same w u [y] l Hr) as K. cbv zeta in K. change ([y] ++ l) with (y :: l) in K. specialize (K Hc) as [K1 K2].
    cbn [run] in K1, K2. fold o v in K1, K2. split; [lia|]. intros p. eapply same_trans; [apply I3|apply K2].
Qed.

(** Rewards and managers. *)
Lemma rewards_iff w u x : Reachable w -> snd (step w (OTx u x [] AddRewards)) = SOk <-> u <> SELF /\ c_lstok (w_cfg w) = TIssued.
Proof.
  intros Hr. rewrite accepted_iff by done. unfold acceptable. cbv beta iota zeta. tauto.
Qed.

Lemma rewards_eq w u x : snd (step w (OTx u x [] AddRewards)) = SOk ->
  fst (step w (OTx u x [] AddRewards))
  = commit (rewarded x (w_pool w)) (emit (EvGeneral u (rewarded x (w_pool w)) (w_epoch w)) (recv x (set_log [] w))).
Proof. intros Hs. did_of w (OTx u x [] AddRewards) Hs. reflexivity. Qed.

Lemma rewards_join w u x y : Reachable w ->
  let a := OTx u x [] AddRewards in let b := OTx u y [] AddRewards in let c := OTx u (x + y) [] AddRewards in
  (snd (step w c) = SOk <-> snd (step w a) = SOk /\ snd (step (fst (step w a)) b) = SOk)
  /\ (snd (step w c) = SOk -> forall p, same p (run w [a; b]) (fst (step w c))).
Proof.
  intros Hr a b c. unfold a, b, c. clear a b c.
  assert (Hv : Reachable (fst (step w (OTx u x [] AddRewards)))) by by apply reach_step.
  assert (Hb : snd (step w (OTx u x [] AddRewards)) = SOk -> snd (step (fst (step w (OTx u x [] AddRewards))) (OTx u y [] AddRewards)) = SOk).
  { intros H. apply rewards_iff; [done|]. rewrite rewards_eq by done. apply rewards_iff in H; [|done]. by cbn. }
  assert (Ha : snd (step w (OTx u (x + y) [] AddRewards)) = SOk <-> snd (step w (OTx u x [] AddRewards)) = SOk) by by rewrite !rewards_iff.
  split; [tauto|]. intros Hc. cbn [run]. pose proof Hc as Ha'. apply Ha in Ha'. specialize (Hb Ha').
  rewrite (rewards_eq _ _ y) by done. rewrite (rewards_eq _ _ (x + y)) by done. rewrite (rewards_eq _ _ x) by done.
  intros []; cbn; unfold ls_supply, virtual_reserve, fees_reserve, total_withdrawn, pending_egld, unstake_queue, unbonding, contract_egld; cbn; try done; lia.
Qed.

Lemma managers_iff w u l : Reachable w -> snd (step w (OTx u 0 [] (AddManagers l))) = SOk <-> u <> SELF /\ u = w_owner w.
Proof.
  intros Hr. rewrite accepted_iff by done. unfold acceptable. cbv beta iota zeta. tauto.
Qed.

Lemma managers_eq w u l : snd (step w (OTx u 0 [] (AddManagers l))) = SOk ->
  fst (step w (OTx u 0 [] (AddManagers l))) = set_cfg (set_c_mgrs (add_all l (c_mgrs (w_cfg w))) (w_cfg w)) (set_log [] w).
Proof. intros Hs. did_of w (OTx u 0 [] (AddManagers l)) Hs. by subst f. Qed.

Lemma add_all_two l m s : add_all (l ++ m) s = add_all m (add_all l s).
Proof. revert s. induction l as [|a l IH]; intros s; cbn; [done|apply IH]. Qed.

Lemma managers_join w u l m : Reachable w ->
  let a := OTx u 0 [] (AddManagers l) in let b := OTx u 0 [] (AddManagers m) in let c := OTx u 0 [] (AddManagers (l ++ m)) in
  (snd (step w c) = SOk <-> snd (step w a) = SOk /\ snd (step (fst (step w a)) b) = SOk)
  /\ (snd (step w c) = SOk -> forall p, same p (run w [a; b]) (fst (step w c))).
Proof.
  intros Hr a b c. unfold a, b, c. clear a b c.
  assert (Hv : Reachable (fst (step w (OTx u 0 [] (AddManagers l))))) by by apply reach_step.
  assert (Hb : snd (step w (OTx u 0 [] (AddManagers l))) = SOk -> snd (step (fst (step w (OTx u 0 [] (AddManagers l)))) (OTx u 0 [] (AddManagers m))) = SOk).
  { intros H. apply managers_iff; [done|]. rewrite managers_eq by done. apply managers_iff in H; [|done]. by cbn. }
  assert (Ha : snd (step w (OTx u 0 [] (AddManagers (l ++ m)))) = SOk <-> snd (step w (OTx u 0 [] (AddManagers l))) = SOk) by by rewrite !managers_iff.
  split; [tauto|]. intros Hc. cbn [run]. pose proof Hc as Ha'. apply Ha in Ha'. specialize (Hb Ha').
  rewrite (managers_eq _ _ m) by done. rewrite (managers_eq _ _ (l ++ m)) by done. rewrite (managers_eq _ _ l) by done.
  intros []; cbn; try done. apply add_all_two.
Qed.
