(** L_Donate.v — the contract never looks at its EGLD balance: adding EGLD to it
    changes nothing else, now or later. *)
From Verif Require Export L_Books.

Section sim.
Context (x : N).
Notation B := (richer x).

(** [r2] is [r1] with its world made richer, unless [r1] ran out of funds *)
Definition sim {A} (L : A -> A) (r1 r2 : res A) : Prop :=
  r1 = Er EFunds \/ r2 = match r1 with Ok a => Ok (L a) | Er e => Er e end.

Lemma sim_bind {A C} (L : A -> A) (M : C -> C) m m' f f' :
  sim L m m' -> (forall a, sim M (f a) (f' (L a))) -> sim M (rbind m f) (rbind m' f').
Proof.
  intros [-> | ->] H; [by left|]. destruct m as [a|e]; cbn; [apply H|by right].
Qed.
Lemma sim_same {A C} (M : C -> C) (m : res A) f f' :
  (forall a, sim M (f a) (f' a)) -> sim M (rbind m f) (rbind m f').
Proof. intros H. destruct m as [a|e]; cbn; [apply H|by right]. Qed.
Lemma sim_ok {A} (L : A -> A) a b : b = L a -> sim L (Ok a) (Ok b).
Proof. intros ->. by right. Qed.
Lemma sim_er {A} (L : A -> A) e : sim L (Er e) (Er e).
Proof. by right. Qed.

(** lifts of pairs *)
Definition L2 {A} (y : A * world) : A * world := (fst y, B (snd y)).
Definition L3 {A C} (y : A * world * C) : A * world * C := (fst (fst y), B (snd (fst y)), snd y).

Lemma sim_take a w : sim B (take_egld a w) (take_egld a (B w)).
Proof.
  unfold take_egld. destruct (a <=? w_egld w) eqn:E; [|by left]. right. cbn.
  replace (a <=? w_egld w + x) with true by lia. replace (w_egld w + x - a) with (w_egld w - a + x) by lia. reflexivity.
Qed.

Ltac s1 :=
  match goal with
  | |- sim _ (Ok _) (Ok _) => apply sim_ok; reflexivity
  | |- sim _ (Er _) (Er _) => apply sim_er
  | |- sim _ (take_egld _ _) _ => apply sim_take
  | |- sim _ (rbind (take_egld _ _) _) _ => eapply sim_bind; [apply sim_take|intros ?; cbn beta]
  | |- sim _ (rbind ?m _) (rbind ?m' _) => change m' with m; apply sim_same; intros ?
  | |- sim _ (if ?b then _ else _) (if ?b' then _ else _) => change b' with b; destruct b
  | |- sim _ (match ?p with (_, _) => _ end) _ => is_var p; destruct p; cbn [L2 L3 fst snd]
  end.
Ltac ss := repeat (s1; cbn beta iota).

Lemma sim_send_egld u a w : sim B (send_egld u a w) (send_egld u a (B w)).
Proof. unfold send_egld. ss. Qed.
Lemma sim_register k a w : sim B (register k a w) (register k a (B w)).
Proof. unfold register. ss. Qed.
Lemma sim_send_ls u a w : sim B (send_ls u a w) (send_ls u a (B w)).
Proof. unfold send_ls. ss. Qed.
Lemma sim_burn_ls a w : sim B (burn_ls a w) (burn_ls a (B w)).
Proof. unfold burn_ls. ss. Qed.
Lemma sim_send_ust u n a w : sim B (send_ust u n a w) (send_ust u n a (B w)).
Proof. unfold send_ust. ss. Qed.
Lemma sim_nft_add n a w : sim B (nft_add n a w) (nft_add n a (B w)).
Proof. unfold nft_add. ss. Qed.
Lemma sim_nft_burn n a w : sim B (nft_burn n a w) (nft_burn n a (B w)).
Proof. unfold nft_burn. ss. Qed.
Lemma sim_upd_prov c f w : sim B (upd_prov c f w) (upd_prov c f (B w)).
Proof. unfold upd_prov. ss. Qed.
Lemma sim_clean n e w : sim B (clean_old_unbond_epochs n e w) (clean_old_unbond_epochs n e (B w)).
Proof. unfold clean_old_unbond_epochs. ss. apply (sim_nft_burn n _ (set_un (delete n1 (w_un w)) w)). Qed.
Lemma sim_mint at_ a ue e w : sim L2 (mint_unstake_tokens at_ a ue e w) (mint_unstake_tokens at_ a ue e (B w)).
Proof.
  unfold mint_unstake_tokens. s1. cbn beta. change (w_un (B w)) with (w_un w). destruct (w_un w !! ue) as [n|].
  - eapply sim_bind; [apply sim_nft_add|]. intros w1. ss.
  - unfold nft_create. cbn beta iota zeta. eapply (sim_bind B); [|intros w3; ss].
    change (w_last (B w)) with (w_last w). destruct (1 <? w_last w + 1); [|ss].
    match goal with |- sim _ (clean_old_unbond_epochs ?n ?e ?v) _ => apply (sim_clean n e v) end.
Qed.

Ltac lem L := eapply sim_bind; [apply L|intros ?; cbn beta].

Lemma sim_process_delegation u a b c w : sim L2 (process_delegation u a b c w) (process_delegation u a b c (B w)).
Proof.
  unfold process_delegation. ss.
  eapply (sim_bind B); [|intros w1; ss]. apply (sim_send_ls u n1 (mint_ls n1 w)).
Qed.
Lemma sim_instant u a c w : sim L2 (process_instant_redemption u a c w) (process_instant_redemption u a c (B w)).
Proof. unfold process_instant_redemption. ss. lem sim_send_egld. ss. Qed.
Lemma sim_undelegate_amount u a c w : sim L2 (undelegate_amount u a c w) (undelegate_amount u a c (B w)).
Proof.
  unfold undelegate_amount. ss. cbn zeta. ss.
  eapply (sim_bind L2); [apply (sim_mint _ _ _ _ w)|]. intros [n w1]. cbn [L2 fst snd].
  lem sim_send_ust. ss.
Qed.
Lemma sim_process_un u a b c w : sim L2 (process_un_delegation u a b c w) (process_un_delegation u a b c (B w)).
Proof.
  unfold process_un_delegation. lem sim_instant. ss. lem sim_undelegate_amount. ss.
Qed.
Lemma sim_delegate u a w : sim B (delegate u a w) (delegate u a (B w)).
Proof. unfold delegate. ss. lem sim_process_delegation. ss. Qed.
Lemma sim_un_delegate u ps w : sim B (un_delegate u ps w) (un_delegate u ps (B w)).
Proof.
  unfold un_delegate. s1. cbn beta. destruct ps as [|p [|? ?]]; ss. lem sim_burn_ls. ss. lem sim_process_un. ss.
Qed.
Lemma sim_withdraw_loop u ps c w t : sim L3 (withdraw_loop u ps c w t) (withdraw_loop u ps c (B w) t).
Proof.
  revert c w t. induction ps as [|p r IH]; intros c w t; cbn [withdraw_loop]; [ss|].
  destruct (y_tok p); ss; unfold burn_unstake_tokens.
  - lem sim_nft_burn. ss. apply IH.
  - lem sim_nft_burn. ss. lem sim_send_ust. apply IH.
Qed.
Lemma sim_withdraw u ps w : sim B (withdraw u ps w) (withdraw u ps (B w)).
Proof. unfold withdraw. ss. eapply (sim_bind L3); [apply sim_withdraw_loop|intros [[c1 w1] t]; cbn [L3 fst snd]]. lem sim_send_egld. ss. Qed.
Lemma sim_delegate_batch ds w : sim B (delegate_batch ds w) (delegate_batch ds (B w)).
Proof.
  revert w. induction ds as [|d ds IH]; intros w; cbn [delegate_batch]; [ss|]. cbn zeta.
  eapply (sim_bind B); [apply (sim_upd_prov _ _ (set_dl (move_to_back (d_addr d) (w_dl w)) w))|]. intros w2.
  lem sim_register. apply IH.
Qed.
Lemma sim_undelegate_batch ds w : sim B (undelegate_batch ds w) (undelegate_batch ds (B w)).
Proof.
  revert w. induction ds as [|d ds IH]; intros w; cbn [undelegate_batch]; [ss|]. cbn zeta.
  eapply (sim_bind B); [apply (sim_upd_prov _ _ (set_ul (move_to_back (d_addr d) (w_ul w)) w))|]. intros w2.
  lem sim_register. apply IH.
Qed.
Lemma sim_delegate_pending u o w : sim B (delegate_pending u o w) (delegate_pending u o (B w)).
Proof. unfold delegate_pending. ss. lem sim_delegate_batch. ss. Qed.
Lemma sim_un_delegate_pending u o w : sim B (un_delegate_pending u o w) (un_delegate_pending u o (B w)).
Proof. unfold un_delegate_pending. ss. lem sim_undelegate_batch. ss. Qed.
Lemma sim_claim_fees ok w : sim B (claim_fees ok w) (claim_fees ok (B w)).
Proof. unfold claim_fees, claim_fees_with. ss. destruct ok; cbn; ss. Qed.

Lemma sim_callback k r w : sim B (callback k r w) (callback k r (B w)).
Proof.
  destruct k; cbn [callback].
  - unfold add_liquidity_callback. ss; lem sim_upd_prov; ss.
  - unfold remove_liquidity_callback. s1. cbn beta. eapply (sim_bind L2); [|intros y; ss].
    destruct (is_done r); lem sim_upd_prov; ss.
  - unfold withdraw_tokens_callback. ss. lem sim_upd_prov. ss.
  - unfold claim_rewards_callback. destruct r; ss.
  - unfold whitelist_callback. ss.
    + lem sim_upd_prov. ss.
      match goal with |- sim _ (rbind (send_ls ?u ?m ?v) _) _ => eapply (sim_bind B); [apply (sim_send_ls u m v)|] end.
      intros w5. ss.
    + match goal with |- sim _ (rbind (send_egld ?u ?m ?v) _) _ => eapply (sim_bind B); [apply (sim_send_egld u m v)|] end.
      intros w5. ss.
  - unfold issue_callback. cbn zeta. destruct (is_done r), ls; ss.
    all: match goal with |- sim _ (send_egld ?u ?m ?v) _ => apply (sim_send_egld u m v) end.
Qed.

Lemma sim_endpoint ep u e ps w : sim B (run_endpoint ep u e ps w) (run_endpoint ep u e ps (B w)).
Proof.
  destruct ep; cbn [run_endpoint].
  - apply sim_delegate.
  - apply sim_un_delegate.
  - apply sim_withdraw.
  - apply sim_delegate_pending.
  - apply sim_un_delegate_pending.
  - unfold withdraw_pending. ss. lem sim_register. ss.
  - unfold claim_rewards. ss. lem sim_register. ss.
  - apply sim_claim_fees.
  - unfold whitelist. ss.
    match goal with |- sim _ (register ?k ?a ?v) _ => apply (sim_register k a v) end.
  - unfold change_admin. ss. apply sim_upd_prov.
  - unfold change_params. ss. apply sim_upd_prov.
  - unfold register_ls_token. ss. change (w_cfg (B w)) with (w_cfg w). destruct (c_lstok (w_cfg w)); ss.
    match goal with |- sim _ (register ?k ?a ?v) _ => apply (sim_register k a v) end.
  - unfold register_unstake_token. ss. change (w_cfg (B w)) with (w_cfg w). destruct (c_usttok (w_cfg w)); ss.
    match goal with |- sim _ (register ?k ?a ?v) _ => apply (sim_register k a v) end.
  - unfold set_state, owner_set. ss.
  - unfold set_state, owner_set. ss.
  - unfold set_accumulator, owner_set. ss.
  - unfold set_fees, owner_set. ss.
  - unfold set_minimum_rounds, owner_set. ss.
  - unfold set_max_addresses, owner_set. ss.
  - unfold set_max_selected, owner_set. ss.
  - unfold set_unbond_period, owner_set. ss.
  - unfold add_managers, owner_set. ss.
  - unfold remove_manager, owner_set. ss.
  - unfold set_scoring_config, owner_set. ss.
  - unfold migrate. ss.
    match goal with |- sim _ (rbind (send_ls ?u ?m ?v) _) _ => eapply (sim_bind B); [apply (sim_send_ls u m v)|] end.
    intros w5. ss.
  - unfold migrate_pending. ss.
  - unfold add_rewards. ss.
  - unfold set_migration_sc, owner_set. ss.
Qed.

Lemma sim_pay_in u ps w : sim B (pay_in u ps w) (pay_in u ps (B w)).
Proof.
  revert w. induction ps as [|p r IH]; intros w; cbn [pay_in]; [ss|].
  eapply (sim_bind B); [|intros w1; apply IH].
  destruct (y_tok p); change (w_ls (B w)) with (w_ls w); change (w_ust (B w)) with (w_ust w);
    try (destruct (debit _ _ _)); ss.
Qed.

Lemma sim_tx u e ps ep w : sim B (exec_tx u e ps ep w) (exec_tx u e ps ep (B w)).
Proof.
  unfold exec_tx. s1. lem sim_pay_in. cbn zeta. ss.
  replace (set_egld (w_egld (B a0) + e) (B a0)) with (B (set_egld (w_egld a0 + e) a0))
    by (unfold richer, set_egld; cbn; f_equal; lia).
  apply sim_endpoint.
Qed.

Lemma richer_step w o :
  Reachable w -> step (richer x w) o = (richer x (fst (step w o)), snd (step w o)).
Proof.
  intros Hr. destruct (never_out_of_funds w o Hr) as [H1 H2]. revert H1 H2. unfold step.
  change (set_log [] (B w)) with (B (set_log [] w)). generalize (set_log [] w). clear w Hr. intros w.
  destruct o as [u e ps ep|i out|i|d|f t a|n f t a|a|a|c y u|i]; cbn zeta.
  - destruct (sim_tx u e ps ep w) as [E|E]; rewrite E.
    + cbn. done.
    + by destruct (exec_tx u e ps ep w).
  - intros _ _. change (w_calls (B w)) with (w_calls w). destruct (nth_error (w_calls w) i) as [k|]; [|done].
    assert (exec_call k out (B w) = (fun y => (fst y, B (snd y))) <$> exec_call k out w) as ->.
    { destruct out as [v|]; [|done]. destruct k; cbn; change (live_of (B w)) with (live_of w); try done;
        destruct (live_of w _); try done; by destruct (_ <=? _). }
    by destruct (exec_call k out w) as [[r w1]|].
  - change (w_res (B w)) with (w_res w). destruct (nth_error (w_res w) i) as [[k r]|]; [|done].
    replace (set_egld (w_egld (B w) + attached k r) (set_res (drop_nth i (w_res w)) (B w)))
      with (B (set_egld (w_egld w + attached k r) (set_res (drop_nth i (w_res w)) w)))
      by (unfold richer, set_egld; cbn; f_equal; lia).
    generalize (set_egld (w_egld w + attached k r) (set_res (drop_nth i (w_res w)) w)). intros v.
    destruct (sim_callback k r v) as [E|E]; rewrite E; [cbn; done|]. by destruct (callback k r v).
  - intros _ _. cbn. by destruct (_ <? _).
  - intros _ _. cbn. destruct (_ =? _); [done|]. by destruct (debit _ _ _).
  - intros _ _. cbn. destruct (_ =? _); [done|]. by destruct (debit _ _ _).
  - intros _ _. cbn. f_equal. unfold richer, set_egld. cbn. f_equal. lia.
  - done.
  - done.
  - intros _ _. change (w_res (B w)) with (w_res w). destruct (nth_error (w_res w) i) as [[k r]|]; [|done]. cbn. f_equal.
    unfold richer, set_egld. cbn. f_equal. lia.
Qed.

Lemma richer_history w os :
  Reachable w -> run (richer x w) os = richer x (run w os) /\ statuses (richer x w) os = statuses w os.
Proof.
  revert w. induction os as [|o os IH]; intros w Hr; [done|].
  cbn [run statuses]. rewrite (richer_step w o Hr). cbn [fst snd].
  destruct (IH (fst (step w o)) ltac:(by constructor)) as [-> ->]. done.
Qed.
End sim.

Lemma step_log w l o : step (set_log l w) o = step w o.
Proof. reflexivity. Qed.
Lemma run_log w l os : set_log [] (run (set_log l w) os) = set_log [] (run w os).
Proof. destruct os as [|o os]; [reflexivity|]. cbn [run]. by rewrite step_log. Qed.
Lemma statuses_log w l os : statuses (set_log l w) os = statuses w os.
Proof. destruct os as [|o os]; [reflexivity|]. cbn [statuses]. by rewrite step_log. Qed.
Lemma run_app w os1 os2 : run w (os1 ++ os2) = run (run w os1) os2.
Proof. revert w. induction os1 as [|o os IH]; intros w; [done|]. cbn [app run]. apply IH. Qed.
Lemma statuses_app w os1 os2 : statuses w (os1 ++ os2) = statuses w os1 ++ statuses (run w os1) os2.
Proof. revert w. induction os1 as [|o os IH]; intros w; [done|]. cbn [app run statuses]. by rewrite IH. Qed.
Lemma reach_run_ w os : Reachable w -> Reachable (run w os).
Proof. revert w. induction os as [|o os IH]; intros w H; [exact H|]. apply IH. by constructor. Qed.

(** a donation anywhere in a history *)
Lemma donation_history w os1 a os2 :
  Reachable w ->
  set_log [] (run w (os1 ++ ODonate a :: os2)) = set_log [] (richer a (run w (os1 ++ os2)))
  /\ statuses w (os1 ++ ODonate a :: os2) = statuses w os1 ++ SOk :: statuses (run w os1) os2
  /\ statuses w (os1 ++ os2) = statuses w os1 ++ statuses (run w os1) os2.
Proof.
  intros Hr. apply (reach_run_ w os1) in Hr. rewrite !run_app, !statuses_app. cbn [run statuses].
  change (fst (step (run w os1) (ODonate a))) with (set_log [] (richer a (run w os1))).
  change (snd (step (run w os1) (ODonate a))) with SOk.
  rewrite run_log, statuses_log. destruct (richer_history a (run w os1) os2 Hr) as [-> ->]. done.
Qed.
