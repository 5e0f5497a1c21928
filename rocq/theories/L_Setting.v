(** L_Setting.v — the settings that an action does not look at make no difference
    to it. *)
From Verif Require Export Spec20.

Section sim.
Context (t : tweak).
Notation T := (tweaked t).

(** [r2] is [r1] with its world tweaked *)
Definition twk {A} (L : A -> A) (r1 r2 : res A) : Prop :=
  r2 = match r1 with Ok a => Ok (L a) | Er e => Er e end.

Lemma twk_bind {A C} (L : A -> A) (M : C -> C) m m' f f' :
  twk L m m' -> (forall a, twk M (f a) (f' (L a))) -> twk M (rbind m f) (rbind m' f').
Proof. intros ->. destruct m as [a|e]; cbn; [intros H; apply H|done]. Qed.
Lemma twk_same {A C} (M : C -> C) (m : res A) f f' :
  (forall a, twk M (f a) (f' a)) -> twk M (rbind m f) (rbind m f').
Proof. intros H. destruct m as [a|e]; cbn; [apply H|done]. Qed.

(** lifts of pairs *)
Definition T2 {A} (y : A * world) : A * world := (fst y, T (snd y)).
Definition T3 {A C} (y : A * world * C) : A * world * C := (fst (fst y), T (snd (fst y)), snd y).
End sim.

Ltac t1 :=
  match goal with
  | |- twk _ (Ok _) (Ok _) => reflexivity
  | |- twk _ (Er _) (Er _) => reflexivity
  | |- twk _ (rbind ?m _) (rbind ?m' _) => change m' with m; apply twk_same; intros ?
  | |- twk _ (if ?b then _ else _) (if ?b' then _ else _) => change b' with b; destruct b
  | |- twk _ (match ?p with (_, _) => _ end) _ => is_var p; destruct p; cbn [T2 T3 fst snd]
  end.
Ltac tt_ := repeat (t1; cbn beta iota).

Lemma twk_take t a w : twk (tweaked t) (take_egld a w) (take_egld a (tweaked t w)).
Proof. unfold take_egld. destruct t; tt_. Qed.
Ltac lem L := eapply twk_bind; [apply L|intros ?; cbn beta].
Lemma twk_send_egld t u a w : twk (tweaked t) (send_egld u a w) (send_egld u a (tweaked t w)).
Proof. unfold send_egld. lem twk_take. by destruct t. Qed.
Lemma twk_register t k a w : twk (tweaked t) (register k a w) (register k a (tweaked t w)).
Proof. unfold register. lem twk_take. by destruct t. Qed.
Lemma twk_send_ls t u a w : twk (tweaked t) (send_ls u a w) (send_ls u a (tweaked t w)).
Proof. unfold send_ls. destruct t; tt_. Qed.
Lemma twk_burn_ls t a w : twk (tweaked t) (burn_ls a w) (burn_ls a (tweaked t w)).
Proof. unfold burn_ls. destruct t; tt_. Qed.
Lemma twk_send_ust t u n a w : twk (tweaked t) (send_ust u n a w) (send_ust u n a (tweaked t w)).
Proof. unfold send_ust. destruct t; tt_. Qed.
Lemma twk_nft_add t n a w : twk (tweaked t) (nft_add n a w) (nft_add n a (tweaked t w)).
Proof. unfold nft_add. destruct t; tt_. Qed.
Lemma twk_nft_burn t n a w : twk (tweaked t) (nft_burn n a w) (nft_burn n a (tweaked t w)).
Proof. unfold nft_burn. destruct t; tt_. Qed.
Lemma twk_upd_prov t c f w : twk (tweaked t) (upd_prov c f w) (upd_prov c f (tweaked t w)).
Proof. unfold upd_prov. destruct t; tt_. Qed.
Lemma twk_clean t n e w : twk (tweaked t) (clean_old_unbond_epochs n e w) (clean_old_unbond_epochs n e (tweaked t w)).
Proof. unfold clean_old_unbond_epochs. 
  destruct t; tt_; match goal with |- twk (tweaked ?t) (nft_burn ?n ?a ?v) _ => apply (twk_nft_burn t n a v) end.
Qed.
Lemma twk_mint t at_ a ue e w :
  twk (T2 t) (mint_unstake_tokens at_ a ue e w) (mint_unstake_tokens at_ a ue e (tweaked t w)).
Proof.
  unfold mint_unstake_tokens.
  replace (unstake_token_id (tweaked t w)) with (unstake_token_id w) by by destruct t.
  replace (w_un (tweaked t w)) with (w_un w) by by destruct t.
  apply twk_same; intros _. destruct (w_un w !! ue) as [n|].
  - lem twk_nft_add. by destruct t.
  - unfold nft_create. cbn beta iota zeta.
    replace (w_last (tweaked t w)) with (w_last w) by by destruct t.
    eapply (twk_bind (tweaked t)); [|intros w3; by destruct t].
    destruct (1 <? w_last w + 1).
    + match goal with |- twk _ (clean_old_unbond_epochs ?n ?e ?v) ?r =>
        replace r with (clean_old_unbond_epochs n e (tweaked t v)) by (by destruct t) end.
      apply twk_clean.
    + by destruct t.
Qed.
Lemma twk_process_delegation t u a b c w :
  twk (T2 t) (process_delegation u a b c w) (process_delegation u a b c (tweaked t w)).
Proof.
  unfold process_delegation. tt_. 
  replace (mint_ls n1 (tweaked t w)) with (tweaked t (mint_ls n1 w)) by (by destruct t).
  lem twk_send_ls. by destruct t.
Qed.
Lemma twk_instant t u a c w :
  twk (T2 t) (process_instant_redemption u a c w) (process_instant_redemption u a c (tweaked t w)).
Proof. unfold process_instant_redemption. tt_. lem twk_send_egld. done. Qed.
Lemma twk_undelegate_amount t u a c w :
  looks UnDelegate t = false \/ (exists b, t = TwActive b) ->
  twk (T2 t) (undelegate_amount u a c w) (undelegate_amount u a c (tweaked t w)).
Proof.
  intros Ht. unfold undelegate_amount. t1; [|done]. cbn zeta. t1. cbn beta.
  replace (c_unbond (w_cfg (tweaked t w))) with (c_unbond (w_cfg w))
    by (destruct Ht as [Ht|[b ->]]; [by destruct t|done]).
  replace (w_epoch (tweaked t w)) with (w_epoch w) by by destruct t.
  eapply (twk_bind (T2 t)); [apply twk_mint|]. intros [n w1]. cbn [T2 fst snd].
  lem twk_send_ust. done.
Qed.
Lemma twk_withdraw_loop t u ps c w s :
  twk (T3 t) (withdraw_loop u ps c w s) (withdraw_loop u ps c (tweaked t w) s).
Proof.
  revert c w s. induction ps as [|p r IH]; intros c w s; cbn [withdraw_loop]; [done|].
  destruct (y_tok p) as [|n|]; [done| |done].
  replace (token_attributes n (tweaked t w)) with (token_attributes n w) by by destruct t.
  replace (w_epoch (tweaked t w)) with (w_epoch w) by by destruct t.
  unfold burn_unstake_tokens. tt_.
  - lem twk_nft_burn. t1. apply IH.
  - lem twk_nft_burn. t1. lem twk_send_ust. apply IH.
Qed.
Lemma twk_delegate_batch t ds w : twk (tweaked t) (delegate_batch ds w) (delegate_batch ds (tweaked t w)).
Proof.
  revert w. induction ds as [|d ds IH]; intros w; cbn [delegate_batch]; [done|]. cbn zeta.
  replace (set_dl (move_to_back (d_addr d) (w_dl (tweaked t w))) (tweaked t w))
    with (tweaked t (set_dl (move_to_back (d_addr d) (w_dl w)) w)) by by destruct t.
  lem twk_upd_prov. lem twk_register. apply IH.
Qed.
Lemma twk_undelegate_batch t ds w : twk (tweaked t) (undelegate_batch ds w) (undelegate_batch ds (tweaked t w)).
Proof.
  revert w. induction ds as [|d ds IH]; intros w; cbn [undelegate_batch]; [done|]. cbn zeta.
  replace (set_ul (move_to_back (d_addr d) (w_ul (tweaked t w))) (tweaked t w))
    with (tweaked t (set_ul (move_to_back (d_addr d) (w_ul w)) w)) by by destruct t.
  lem twk_upd_prov. lem twk_register. apply IH.
Qed.

Lemma twk_process_un t u a b c w :
  looks UnDelegate t = false \/ (exists b, t = TwActive b) ->
  twk (T2 t) (process_un_delegation u a b c w) (process_un_delegation u a b c (tweaked t w)).
Proof.
  intros Ht. unfold process_un_delegation. eapply (twk_bind (T2 t)); [apply twk_instant|]. intros [c1 w1].
  cbn [T2 fst snd]. eapply (twk_bind (T2 t)); [by apply twk_undelegate_amount|]. intros [c2 w2]. by destruct t.
Qed.

Ltac lv :=
  match goal with
  | |- twk (tweaked ?t) (rbind (send_ls ?u ?m ?v) _) _ => eapply (twk_bind (tweaked t)); [apply (twk_send_ls t u m v)|intros ?]
  | |- twk (tweaked ?t) (rbind (send_egld ?u ?m ?v) _) _ => eapply (twk_bind (tweaked t)); [apply (twk_send_egld t u m v)|intros ?]
  | |- twk (tweaked ?t) (send_egld ?u ?m ?v) _ => apply (twk_send_egld t u m v)
  | |- twk (tweaked ?t) (rbind (register ?k ?m ?v) _) _ => eapply (twk_bind (tweaked t)); [apply (twk_register t k m v)|intros ?]
  | |- twk (tweaked ?t) (register ?k ?m ?v) _ => apply (twk_register t k m v)
  | |- twk (tweaked ?t) (rbind (burn_ls ?m ?v) _) _ => eapply (twk_bind (tweaked t)); [apply (twk_burn_ls t m v)|intros ?]
  | |- twk (tweaked ?t) (rbind (upd_prov ?c ?f ?v) _) _ => eapply (twk_bind (tweaked t)); [apply (twk_upd_prov t c f v)|intros ?]
  | |- twk (tweaked ?t) (upd_prov ?c ?f ?v) _ => apply (twk_upd_prov t c f v)
  | |- twk (tweaked ?t) (rbind (take_egld ?m ?v) _) _ => eapply (twk_bind (tweaked t)); [apply (twk_take t m v)|intros ?]
  | |- twk (tweaked ?t) (rbind (delegate_batch ?m ?v) _) _ => eapply (twk_bind (tweaked t)); [apply (twk_delegate_batch t m v)|intros ?]
  | |- twk (tweaked ?t) (rbind (undelegate_batch ?m ?v) _) _ => eapply (twk_bind (tweaked t)); [apply (twk_undelegate_batch t m v)|intros ?]
  | |- twk (tweaked ?t) (rbind (process_delegation ?u ?a ?b ?c ?v) _) _ => eapply (twk_bind (T2 t)); [apply (twk_process_delegation t u a b c v)|intros ?]
  | |- twk (tweaked ?t) (rbind (withdraw_loop ?u ?ps ?c ?v ?s) _) _ => eapply (twk_bind (T3 t)); [apply (twk_withdraw_loop t u ps c v s)|intros ?]
  | |- twk (tweaked ?t) (rbind (process_un_delegation ?u ?a ?b ?c ?v) _) _ =>
      eapply (twk_bind (T2 t)); [apply (twk_process_un t u a b c v); by left|intros ?]
  | |- twk _ (match ?x with _ => _ end) (match ?x' with _ => _ end) => change x' with x; destruct x
  end.
Ltac tv := repeat (first [lv|t1]; cbn beta iota zeta).

Lemma twk_endpoint t ep u e ps w :
  looks ep t = false -> replaces ep t = false ->
  twk (tweaked t) (run_endpoint ep u e ps w) (run_endpoint ep u e ps (tweaked t w)).
Proof.
  intros H1 H2.
  destruct ep; cbn [run_endpoint];
    unfold delegate, un_delegate, withdraw, delegate_pending, un_delegate_pending, withdraw_pending,
      claim_rewards, claim_fees, claim_fees_with, whitelist, change_admin, change_params,
      register_ls_token, register_unstake_token, set_state, set_accumulator, set_fees,
      set_minimum_rounds, set_max_addresses, set_max_selected, set_unbond_period, add_managers,
      remove_manager, set_scoring_config, migrate, migrate_pending, add_rewards, set_migration_sc,
      owner_set;
    destruct t; try discriminate H1; try discriminate H2; tv.
  all: destruct accumulator_ok; reflexivity.
Qed.

Lemma twk_callback t k r w :
  (match t, k with TwFees _, KClaim _ => true | _, _ => false end) = false ->
  twk (tweaked t) (callback k r w) (callback k r (tweaked t w)).
Proof.
  intros H. destruct k; cbn [callback].
  - unfold add_liquidity_callback. destruct t; tv.
  - unfold remove_liquidity_callback.
    replace (cache_new (tweaked t w)) with (cache_new w) by by destruct t.
    apply twk_same. intros k. eapply (twk_bind (T2 t)).
    + destruct (is_done r); (eapply (twk_bind (tweaked t)); [apply twk_upd_prov|done]).
    + intros [k1 w1]. by destruct t.
  - unfold withdraw_tokens_callback. destruct t; tv.
  - unfold claim_rewards_callback. destruct r; destruct t; try discriminate H; tv.
  - unfold whitelist_callback. destruct t; tv.
  - unfold issue_callback. cbn zeta. destruct t, (is_done r), ls; tv.
Qed.

Lemma twk_pay_in t u ps w : twk (tweaked t) (pay_in u ps w) (pay_in u ps (tweaked t w)).
Proof.
  revert w. induction ps as [|p r IH]; intros w; cbn [pay_in]; [done|].
  eapply (twk_bind (tweaked t)); [|intros w1; apply IH].
  destruct (y_tok p); destruct t; tv.
Qed.

Lemma twk_tx t u e ps ep w :
  looks ep t = false -> replaces ep t = false ->
  twk (tweaked t) (exec_tx u e ps ep w) (exec_tx u e ps ep (tweaked t w)).
Proof.
  intros H1 H2. unfold exec_tx. t1. eapply (twk_bind (tweaked t)); [apply twk_pay_in|]. intros w1. cbn zeta.
  replace (set_egld (w_egld (tweaked t w1) + e) (tweaked t w1)) with (tweaked t (set_egld (w_egld w1 + e) w1))
    by by destruct t.
  do 2 t1. by apply twk_endpoint.
Qed.

Lemma tweaked_step w o t :
  heeds w o t = false -> step (tweaked t w) o = (tweaked t (fst (step w o)), snd (step w o)).
Proof.
  unfold step. replace (set_log [] (tweaked t w)) with (tweaked t (set_log [] w)) by by destruct t.
  intros H. change (heeds (set_log [] w) o t = false) in H. revert H.
  generalize (set_log [] w). clear w. intros w H.
  destruct o as [u e ps ep|i out|i|d|f g a|n f g a|a|a|c y u|i]; cbn [heeds] in H.
  - apply orb_false_iff in H as [H1 H2]. rewrite (twk_tx t u e ps ep w H1 H2). by destruct (exec_tx u e ps ep w).
  - replace (w_calls (tweaked t w)) with (w_calls w) by by destruct t.
    destruct (nth_error (w_calls w) i) as [k|]; [|done].
    assert (exec_call k out (tweaked t w) = (fun y => (fst y, tweaked t (snd y))) <$> exec_call k out w) as ->.
    { assert (forall c, live_of (tweaked t w) c = live_of w c) as Hl by (intros c; by destruct t).
      assert (forall m, set_live m (tweaked t w) = tweaked t (set_live m w)) as Hm by (intros m; by destruct t).
      assert (w_live (tweaked t w) = w_live w) as Hw by by destruct t.
      destruct out as [v|]; [|done]. destruct k; cbn [exec_call]; rewrite ?Hl, ?Hw; try done;
        destruct (live_of w _); rewrite ?Hm; try done; by destruct (_ <=? _). }
    destruct (exec_call k out w) as [[r w1]|]; [|done]. by destruct t.
  - replace (w_res (tweaked t w)) with (w_res w) by by destruct t.
    destruct (nth_error (w_res w) i) as [[k r]|]; [|done]. cbn zeta.
    replace (set_egld (w_egld (tweaked t w) + attached k r) (set_res (drop_nth i (w_res w)) (tweaked t w)))
      with (tweaked t (set_egld (w_egld w + attached k r) (set_res (drop_nth i (w_res w)) w))) by by destruct t.
    rewrite (twk_callback t k r); [by destruct (callback k r _)|]. by destruct t, k.
  - replace (w_epoch (tweaked t w)) with (w_epoch w) by by destruct t. destruct (_ <? _); [|done]. by destruct t.
  - replace (w_ls (tweaked t w)) with (w_ls w) by by destruct t. destruct (_ =? _); [done|].
    destruct (debit _ _ _); [|done]. by destruct t.
  - replace (w_ust (tweaked t w)) with (w_ust w) by by destruct t. destruct (_ =? _); [done|].
    destruct (debit _ _ _); [|done]. by destruct t.
  - by destruct t.
  - by destruct t.
  - by destruct t.
  - replace (w_res (tweaked t w)) with (w_res w) by by destruct t.
    destruct (nth_error (w_res w) i) as [[k r]|]; [|done]. by destruct t.
Qed.

(** a setter forgets the old value *)
Lemma replaced_endpoint t ep u e ps w :
  replaces ep t = true ->
  run_endpoint ep u e ps (tweaked t w)
  = match run_endpoint ep u e ps w with Ok w' => Ok w' | Er x => Er x end.
Proof.
  intros H. destruct ep, t; try discriminate H; cbn [run_endpoint tweaked];
    unfold set_state, set_accumulator, set_fees, set_minimum_rounds, set_max_addresses, set_max_selected,
      set_unbond_period, set_scoring_config, set_migration_sc, owner_set, only_owner, is_manager, manager_b; cbn;
    repeat match goal with |- context [require ?b ?x] => destruct (require b x); cbn end; done.
Qed.

Lemma replaced_step w t u e ps ep :
  replaces ep t = true ->
  step (tweaked t w) (OTx u e ps ep)
  = (match snd (step w (OTx u e ps ep)) with
     | SOk => fst (step w (OTx u e ps ep))
     | _ => tweaked t (fst (step w (OTx u e ps ep)))
     end, snd (step w (OTx u e ps ep))).
Proof.
  intros H. unfold step. replace (set_log [] (tweaked t w)) with (tweaked t (set_log [] w)) by by destruct t.
  generalize (set_log [] w). clear w. intros w.
  assert (exec_tx u e ps ep (tweaked t w) = exec_tx u e ps ep w) as ->.
  { unfold exec_tx. destruct (require (negb (u =? SELF)) EInvalid); cbn; [|done].
    rewrite (twk_pay_in t u ps w). destruct (pay_in u ps w) as [w1|]; cbn; [|done].
    destruct (payment_ok ep e ps); cbn; [|done]. destruct (require (args_ok ep) EDecode); cbn; [|done].
    replace (set_egld (w_egld (tweaked t w1) + e) (tweaked t w1)) with (tweaked t (set_egld (w_egld w1 + e) w1))
      by by destruct t.
    rewrite replaced_endpoint by done. by destruct (run_endpoint _ _ _ _ _). }
  by destruct (exec_tx u e ps ep w).
Qed.

(** over whole histories *)
Lemma rpe_history w os n :
  run (tweaked (TwRpe n) w) os = tweaked (TwRpe n) (run w os)
  /\ statuses (tweaked (TwRpe n) w) os = statuses w os.
Proof.
  revert w. induction os as [|o os IH]; intros w; [done|]. cbn [run statuses].
  rewrite (tweaked_step w o (TwRpe n)) by (destruct o as [? ? ? ep| | | | | | | | |]; try done; by destruct ep).
  cbn [fst snd]. by destruct (IH (fst (step w o))) as [-> ->].
Qed.

Lemma minr_history w os n :
  (exists m, run (tweaked (TwMinr n) w) os = tweaked (TwMinr m) (run w os))
  /\ statuses (tweaked (TwMinr n) w) os = statuses w os.
Proof.
  revert w n. induction os as [|o os IH]; intros w n; [split; [by exists n|done]|]. cbn [run statuses].
  destruct (heeds w o (TwMinr n)) eqn:E.
  - destruct o as [u e ps ep| | | | | | | | |]; try discriminate E; destruct ep; try discriminate E.
    rewrite replaced_step by done. cbn [fst snd].
    destruct (snd (step w (OTx u e ps (SetMinimumRounds r)))); cbn [fst snd].
    + split; [|done]. set (v := run _ os). exists (c_minr (w_cfg v)).
      by destruct v as [[] ? ? ? ? ? ? ? ? ? ? ? ? ? ? ? ?].
    + destruct (IH (fst (step w (OTx u e ps (SetMinimumRounds r)))) n) as [H ->]. done.
    + destruct (IH (fst (step w (OTx u e ps (SetMinimumRounds r)))) n) as [H ->]. done.
    + destruct (IH (fst (step w (OTx u e ps (SetMinimumRounds r)))) n) as [H ->]. done.
  - rewrite tweaked_step by done. cbn [fst snd]. destruct (IH (fst (step w o)) n) as [H ->]. done.
Qed.

Lemma unheeded_history w os t :
  (forall pre o post, os = pre ++ o :: post -> heeds (run w pre) o t = false) ->
  run (tweaked t w) os = tweaked t (run w os) /\ statuses (tweaked t w) os = statuses w os.
Proof.
  revert w. induction os as [|o os IH]; intros w H; [done|]. cbn [run statuses].
  rewrite (tweaked_step w o t) by (apply (H [] o os); done). cbn [fst snd].
  destruct (IH (fst (step w o))) as [-> ->]; [|done].
  intros pre o' post ->. apply (H (o :: pre) o' post). done.
Qed.

Lemma ignored_history w os t :
  ignores t w os -> run (tweaked t w) os = tweaked t (run w os) /\ statuses (tweaked t w) os = statuses w os.
Proof. exact (unheeded_history w os t). Qed.

Lemma rounds_dead w os n m :
  (exists m', run (tweaked (TwRpe n) (tweaked (TwMinr m) w)) os
              = tweaked (TwRpe n) (tweaked (TwMinr m') (run w os)))
  /\ statuses (tweaked (TwRpe n) (tweaked (TwMinr m) w)) os = statuses w os.
Proof.
  destruct (rpe_history (tweaked (TwMinr m) w) os n) as [-> ->].
  destruct (minr_history w os m) as [[m' ->] ->]. split; [by exists m'|done].
Qed.

Lemma blind w o m :
  (forall i out, o <> OExec i out) -> (forall c x y, o <> OProvider c x y) ->
  step (set_live m w) o = (set_live m (fst (step w o)), snd (step w o)).
Proof.
  intros H1 H2. apply (tweaked_step w o (TwLive m)).
  destruct o as [? ? ? ep|? ?| | | | | | |? ? ?|]; try done.
  - by destruct (H1 i o).
  - by destruct (H2 c active undelegated).
Qed.
