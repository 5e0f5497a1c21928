(** L_Exact.v — exactly when the failures behind C49, C56, C59 and C82 occur. *)
From Verif Require Export Spec7 L_Split L_Iff L_Find L_Find2 L_Turn L_Coal.

(** * C49 *)
Lemma locked_exactly w :
  Reachable w -> c_lstok (w_cfg w) = TIssued -> c_active (w_cfg w) = true ->
  (forall os u a pays, snd (step (run w os) (OTx u a pays Delegate)) <> SOk)
  <-> ls_supply w = 0 /\ 0 < virtual_reserve w.
Proof.
  intros Hr HI Ha. split.
  - intros H. unfold ls_supply, virtual_reserve.
    destruct (decide (supply (w_pool w) = 0 /\ 0 < reserve (w_pool w))) as [|Hn]; [done|]. exfalso.
    set (a := N.max MIN_EGLD (reserve (w_pool w))).
    apply (H [] (SELF + 1) a []). cbn [run].
    apply (delegate_full w (SELF + 1) a (minted a (w_pool w))); try done; [lia|].
    apply view_egld_value_ok; [done|]. unfold minted. pose proof MIN_pos.
    destruct (0 <? reserve (w_pool w)) eqn:B; [|lia].
    apply N.div_str_pos. split; [lia|]. nia.
  - intros [H1 H2] os u a pays. by apply stuck_forever.
Qed.

(** * Who gets something in a batch *)
Lemma in_turn_none rule l r :
  some_of (in_turn rule l r) = [] <-> forall c, In c l -> rule c r = 0.
Proof.
  revert r. induction l as [|c l IH]; intros r; cbn; [tauto|]. destruct (0 <? rule c r) eqn:B; cbn.
  - split; [done|]. intros H. specialize (H c ltac:(by left)). lia.
  - assert (rule c r = 0) as E by lia. rewrite E, N.sub_0_r. split.
    + intros H d [<-|Hd]; [done|]. by apply IH.
    + intros H. apply IH. intros d Hd. apply H. by right.
Qed.

Lemma topped_more more b r : sumN (map snd b) <= sumN (map snd (topped_up more b r)).
Proof. revert r. induction b as [|[c x] b IH]; intros r; cbn; [lia|]. specialize (IH (r - more c x r)). lia. Qed.
Lemma topped_nil more b r : topped_up more b r = [] <-> b = [].
Proof. destruct b as [|[]]; cbn; split; done. Qed.

Lemma in_turn_least (m : N) rule l r : (forall c r, In c l -> rule c r = 0 \/ m <= rule c r) ->
  some_of (in_turn rule l r) <> [] -> m <= sumN (map snd (some_of (in_turn rule l r))).
Proof.
  intros Hm. assert (HF : Forall (fun x => m <= snd x) (some_of (in_turn rule l r))).
  { revert r Hm. induction l as [|c l IH]; intros r Hm; cbn; [constructor|].
    destruct (0 <? rule c r) eqn:B; cbn; [constructor|]; try (apply IH; intros; apply Hm; by right).
    destruct (Hm c r ltac:(by left)); cbn; lia. }
  destruct (some_of (in_turn rule l r)) as [|x b]; [done|]. intros _. apply list.Forall_cons in HF as [Hx _]. cbn. lia.
Qed.

Lemma two_rounds_nil rule more l a : two_rounds rule more l a = [] <-> forall c, In c l -> rule c a = 0.
Proof. unfold two_rounds. cbn zeta. rewrite topped_nil. apply in_turn_none. Qed.
Lemma two_rounds_least (m : N) rule more l a : (forall c r, In c l -> rule c r = 0 \/ m <= rule c r) ->
  two_rounds rule more l a <> [] -> m <= sumN (map snd (two_rounds rule more l a)).
Proof.
  intros Hm H. unfold two_rounds in *. cbn zeta in *. rewrite topped_nil in H.
  etransitivity; [apply (in_turn_least m rule l a Hm H)|]. apply topped_more.
Qed.

Lemma batch_at_least w u eg pays o : Reachable w ->
  snd (step w (OTx u eg pays (DelegatePending o))) = SOk -> ONE_EGLD <= default (pending_egld w) o.
Proof.
  intros Hr Hs. did_of w (OTx u eg pays (DelegatePending o)) Hs.
  match goal with H : batch_amount _ _ = Ok ?x |- _ =>
    destruct (batch_amount_inv _ _ _ H) as (K0 & _ & K); assert (default (pending_egld w) o = x) as -> by (cbn in K; unfold pending_egld; by destruct o) end.
  change ONE_EGLD with MIN_EGLD. cbn in *. lia.
Qed.

(** * C59 *)
Lemma idle_delegation w u eg pays o sc :
  Reachable w -> snd (step w (OTx u eg pays (DelegatePending o))) = SOk ->
  c_score (w_cfg w) = Some sc -> N.of_nat (length (w_dl w)) < 2 ^ 32 ->
  let w' := fst (step w (OTx u eg pays (DelegatePending o))) in
  let a := default (pending_egld w) o in
  let score c := deleg_score sc (net_of w (candidates w a)) (rec w c) in
  let share c := proportion (score c) (sumN (map score (candidates w a))) a a in
  (pending_egld w' = pending_egld w /\ w_calls w' = w_calls w
   /\ (forall c, In c (candidates w a) ->
       share c < ONE_EGLD \/ p_cap (rec w c) <> 0 /\ p_cap (rec w c) < p_total (rec w c) + ONE_EGLD))
  \/ (pending_egld w' + ONE_EGLD <= pending_egld w
      /\ exists c, In c (candidates w a) /\ ONE_EGLD <= share c
         /\ (p_cap (rec w c) = 0 \/ p_total (rec w c) + ONE_EGLD <= p_cap (rec w c))).
Proof.
  intros Hr Hs Hsc HU w' a score share.
  destruct (delegation_exact w u eg pays o sc Hr Hs Hsc HU) as [Hcalls Hsum]. fold w' in Hcalls, Hsum. fold a in Hcalls, Hsum.
  pose proof (batch_at_least w u eg pays o Hr Hs) as Ha. fold a in Ha.
  remember w' as v eqn:Ev. clear Ev.
  set (l := candidates w a) in *.
  assert (Hz : forall c, stake_first (rec w c) (share c) a = 0
     <-> share c < ONE_EGLD \/ p_cap (rec w c) <> 0 /\ p_cap (rec w c) < p_total (rec w c) + ONE_EGLD).
  { intros c. unfold stake_first, under_cap. change ONE_EGLD with MIN_EGLD in *. pose proof MIN_pos.
    destruct (p_cap (rec w c) =? 0) eqn:B; destruct (_ <? MIN_EGLD) eqn:B1; lia. }
  set (rule := fun c r => stake_first (rec w c) (proportion (score c) (sumN (map score l)) a r) r).
  set (more := fun c x r => under_cap (rec w c) x r).
  change (delegation_amounts w sc a) with (two_rounds rule more l a) in Hcalls, Hsum.
  destruct (two_rounds rule more l a) as [|x b] eqn:Eb.
  - left. cbn in Hsum. rewrite app_nil_r in Hcalls. split; [lia|]. split; [done|]. intros c Hc. apply Hz.
    by apply (proj1 (two_rounds_nil rule more l a) Eb c Hc).
  - right. split.
    + assert (ONE_EGLD <= sumN (map snd (x :: b))); [|lia]. rewrite <- Eb.
      apply (two_rounds_least ONE_EGLD rule more l a); [|by rewrite Eb].
      intros c r _. unfold rule, stake_first. destruct (_ <? ONE_EGLD) eqn:B; [by left|right; lia].
    + destruct (decide (Exists (fun c => rule c a <> 0) l)) as [Hx|Hx].
      * apply list.Exists_exists in Hx as (c & Hc & Hx). exists c. split; [by apply elem_of_list_In|].
        rewrite (Hz c) in Hx || unfold rule in Hx. fold (share c) in Hx. rewrite Hz in Hx. lia.
      * exfalso. assert (x :: b = []); [|done]. rewrite <- Eb. apply two_rounds_nil. intros c Hc.
        destruct (decide (rule c a = 0)) as [|Hn]; [done|]. exfalso. apply Hx. apply list.Exists_exists. exists c.
        split; [by apply elem_of_list_In|done].
Qed.

(** * C82 *)
Lemma idle_undelegation w u eg pays o sc l :
  Reachable w -> snd (step w (OTx u eg pays (UnDelegatePending o))) = SOk ->
  c_score (w_cfg w) = Some sc -> N.of_nat (length (w_ul w)) < 2 ^ 32 ->
  let w' := fst (step w (OTx u eg pays (UnDelegatePending o))) in
  let a := default (unstake_queue w) o in
  undel_candidates w a l ->
  let score c := undel_score sc (net_of w l) (rec w c) in
  let share c := proportion (score c) (sumN (map score l)) a a in
  let passed_over c := a < net_stake (rec w c) /\ net_stake (rec w c) < N.max ONE_EGLD (N.min (share c) a) + ONE_EGLD in
  (unstake_queue w' = unstake_queue w /\ w_calls w' = w_calls w /\ forall c, In c l -> passed_over c)
  \/ (unstake_queue w' + ONE_EGLD <= unstake_queue w /\ exists c, In c l /\ ~ passed_over c).
Proof.
  intros Hr Hs Hsc HU w' a Hl score share passed_over.
  destruct (undelegation_exact w u eg pays o sc Hr Hs Hsc HU) as (l' & Hl' & Hcalls & Hsum).
  fold w' in Hcalls, Hsum. fold a in Hcalls, Hsum, Hl'.
  assert (l' = l) as -> by (eapply undel_candidates_unique; eassumption).
  destruct (proj1 (undelegate_pending_iff w u eg pays o Hr HU) Hs) as (_ & _ & _ & Hq & _ & _ & l2 & sc2 & Hl2 & Hne & _ & Hone).
  fold a in Hl2. assert (l2 = l) as -> by (eapply undel_candidates_unique; eassumption).
  assert (Ha : ONE_EGLD <= a). { unfold a. destruct Hq as [Hq Ho]. destruct o as [x|]; cbn; [lia|done]. }
  remember w' as v eqn:Ev. clear Ev.
  assert (Hz : forall c, In c l -> unstake_first (net_stake (rec w c)) (share c) a = 0 <-> passed_over c).
  { intros c Hc. destruct (Hone c Hc) as [Hn _]. unfold unstake_first, passed_over. change ONE_EGLD with MIN_EGLD in *. pose proof MIN_pos.
    destruct (a <? MIN_EGLD) eqn:B; [lia|]. destruct (_ <=? net_stake (rec w c)) eqn:B1.
    - lia.
    - destruct (net_stake (rec w c) <=? a) eqn:B2; lia. }
  set (rule := fun c r => unstake_first (net_stake (rec w c)) (proportion (score c) (sumN (map score l)) a r) r).
  set (more := fun c x r => unstake_more (net_stake (rec w c)) x r).
  change (undelegation_amounts w sc a l) with (two_rounds rule more l a) in Hcalls, Hsum.
  destruct (two_rounds rule more l a) as [|x b] eqn:Eb.
  - left. cbn in Hsum. rewrite app_nil_r in Hcalls. split; [lia|]. split; [done|]. intros c Hc. apply Hz; [done|].
    by apply (proj1 (two_rounds_nil rule more l a) Eb c Hc).
  - right. split.
    + assert (ONE_EGLD <= sumN (map snd (x :: b))); [|lia]. rewrite <- Eb.
      apply (two_rounds_least ONE_EGLD rule more l a); [|by rewrite Eb].
      intros c r Hc. destruct (Hone c Hc) as [Hn _]. unfold rule, unstake_first.
      destruct (r <? ONE_EGLD); [by left|]. destruct (_ <=? net_stake (rec w c)) eqn:B1; [right; lia|].
      destruct (_ <=? r); [by right|by left].
    + destruct (decide (Exists (fun c => rule c a <> 0) l)) as [Hx|Hx].
      * apply list.Exists_exists in Hx as (c & Hc & Hx). apply elem_of_list_In in Hc. exists c. split; [done|].
        intros Hp. apply Hx. by apply Hz.
      * exfalso. assert (x :: b = []); [|done]. rewrite <- Eb. apply two_rounds_nil. intros c Hc.
        destruct (decide (rule c a = 0)) as [|Hn]; [done|]. exfalso. apply Hx. apply list.Exists_exists. exists c.
        split; [by apply elem_of_list_In|done].
Qed.

(** * C56 *)
Lemma cap_step w o c p :
  Reachable w -> c ∈ w_dl w -> w_pv w !! c = Some p -> cap_kept c w o ->
  exists p', w_pv (fst (step w o)) !! c = Some p' /\ p_cap p' = p_cap p /\ p_total p' = p_total p
  /\ (p_cap p <> 0 -> net_stake p' + p_total p + ONE_EGLD <= N.max (net_stake p + p_total p + ONE_EGLD) (2 * p_cap p)).
Proof.
  intros Hr Hc Hp [Hk1 Hk2]. pose proof (lists w Hr) as L.
  assert (Hfly : forall a u b, ~ delivers w o (KWhite c a u) b).
  { intros a u b (i & r & -> & Hi & _). pose proof (l_fly _ _ _ _ L) as HF. rewrite list.Forall_forall in HF.
    destruct (HF (KWhite c a u)) as [Hno _]; [|done]. unfold unanswered. apply elem_of_app. right.
    apply elem_of_list_In, in_map_iff. exists (KWhite c a u, r). split; [done|]. by eapply nth_error_In. }
  destruct (w_pv (fst (step w o)) !! c) as [p'|] eqn:Hp'.
  2: { destruct (record_gone w o c) as (a & u & H); [by eexists|done|]. exfalso. by apply (Hfly a u false). }
  exists p'. split; [done|].
  assert (Hpar : p_cap p' = p_cap p /\ p_total p' = p_total p).
  { destruct (decide ((p_admin p', p_total p', p_cap p', p_nodes p', p_apy p') = (p_admin p, p_total p, p_cap p, p_nodes p, p_apy p))) as [E|Hn].
    - injection E as _ -> -> _ _. done.
    - destruct (prov_params_change w o c p p' Hr Hp Hp' Hn) as [(u & t & k & n & y & e & -> & _)|(u & a & -> & _)].
      + exfalso. by eapply Hk1.
      + destruct (exec_tx u 0 [] (ChangeAdmin c a) (set_log [] w)) as [v|e] eqn:Ex.
        * assert (snd (step w (OTx u 0 [] (ChangeAdmin c a))) = SOk) as Es by (cbn; cbn in Ex; by rewrite Ex).
          did_of w (OTx u 0 [] (ChangeAdmin c a)) Es. cbn in Hp', H1. rewrite lookup_insert in Hp'. injection Hp' as <-.
          rewrite Hp in H1. by injection H1 as <-.
        * assert (fst (step w (OTx u 0 [] (ChangeAdmin c a))) = set_log [] w) as Es by (cbn; cbn in Ex; by rewrite Ex).
          rewrite Es in Hp'. cbn in Hp'. rewrite Hp in Hp'. by injection Hp' as <-. }
  destruct Hpar as [Hcap Htot]. split; [done|]. split; [done|]. intros H0.
  pose proof (records_step w o c p p' Hp Hp') as HB. unfold books_move, books in HB.
  destruct HB as [E|[(u & t & k & n & y & e & -> & _)|[(u & x & y & -> & _ & E)|[(u & x & y & -> & Hy & E)|
    [(a & _ & Ha & E)|[(a & _ & Ha & E)|[(a & _ & Ha & Ha2 & E)|[(a & Hd & _)|[(i & v & _ & _ & _ & E)|(a & u & Hd & _)]]]]]]]]].
  - injection E as _ E1 _ E2 E3. unfold net_stake. rewrite E1, E2, E3. lia.
  - exfalso. by eapply Hk1.
  - destruct (decide (p_pst p' = p_pst p)) as [En|En].
    + injection E as _ E1 _ E2 E3. unfold net_stake. rewrite E1, En, E3. lia.
    + destruct (exec_tx u 0 [] (DelegatePending x) (set_log [] w)) as [v|e] eqn:Ex.
      * assert (snd (step w (OTx u 0 [] (DelegatePending x))) = SOk) as Es by (cbn; cbn in Ex; by rewrite Ex).
        destruct (cap_one_batch w u 0 [] x c p p' Hr Es Hp Hp' En H0) as (_ & _ & H). lia.
      * assert (fst (step w (OTx u 0 [] (DelegatePending x))) = set_log [] w) as Es by (cbn; cbn in Ex; by rewrite Ex).
        rewrite Es in Hp'. cbn in Hp'. rewrite Hp in Hp'. injection Hp' as <-. done.
  - injection E as _ E1 _ E2 E3. unfold net_stake. rewrite E1, E2, E3. lia.
  - injection E as _ E1 _ E2 E3. unfold net_stake. rewrite E1, E2, E3. lia.
  - injection E as _ E1 _ E2 E3. unfold net_stake. rewrite E1, E2, E3. lia.
  - injection E as _ E1 _ E2 E3. unfold net_stake. rewrite E1, E2, E3. lia.
  - exfalso. by eapply Hk2.
  - injection E as _ E1 _ E2 E3. unfold net_stake. rewrite E1, E2, E3. lia.
  - exfalso. by eapply Hfly.
Qed.

Lemma cap_history w os c p :
  Reachable w -> In c (w_dl w) -> w_pv w !! c = Some p -> p_cap p <> 0 -> along (cap_kept c) w os ->
  exists p', w_pv (run w os) !! c = Some p' /\ p_cap p' = p_cap p /\ p_total p' = p_total p
  /\ net_stake p' + p_total p + ONE_EGLD <= N.max (net_stake p + p_total p + ONE_EGLD) (2 * p_cap p).
Proof.
  intros Hr Hc. apply elem_of_list_In in Hc. revert w p Hr Hc. induction os as [|o os IH]; intros w p Hr Hc Hp H0 Ha.
  - exists p. cbn. repeat split; [done|lia].
  - destruct Ha as [Ho Ha]. destruct (cap_step w o c p Hr Hc Hp Ho) as (q & Hq & E1 & E2 & Hb). specialize (Hb H0).
    destruct (IH (fst (step w o)) q) as (p' & Hp' & E3 & E4 & Hb'); [by constructor| |done|congruence|done|].
    { by apply (listed_stays w [o] c). }
    exists p'. split; [done|]. split; [congruence|]. split; [congruence|]. rewrite E1, E2 in Hb'. lia.
Qed.

(** * C81 *)
Lemma limit_needed w u eg pays o :
  snd (step w (OTx u eg pays (UnDelegatePending o))) = SOk ->
  c_maxsel (w_cfg w) < 2 ^ 64 /\ c_maxsel (w_cfg w) mod 2 ^ 32 <> 0.
Proof.
  intros Hs. pose proof (step_did w (OTx u eg pays (UnDelegatePending o))) as D. rewrite Hs in D.
  assert (K : exists a x, get_delegation_contract a false (w_dl w) (w_ul w) (w_pv w) (w_cfg w) (w_pool w) = Ok x).
  { inversion D; subst; try done; eauto. }
  clear D Hs. destruct K as (a & x & K). unfold get_delegation_contract in K.
  apply rbind_ok in K as [[] [K0 K]]. apply rbind_ok in K as [[sel t] [K1 K]]. apply rbind_ok in K as [[] [K2 _]].
  unfold select_undel in K1. repeat (apply rbind_ok in K1 as [? [_ K1]]).
  destruct (w_ul w) as [|c r] eqn:El; [discriminate K0|]. cbn [sel_undel_loop] in K1.
  apply rbind_ok in K1 as [h [Eh K1]]. unfold to_usize in Eh.
  destruct (c_maxsel (w_cfg w) <? U64) eqn:B; [|discriminate Eh]. injection Eh as <-.
  change (2 ^ 64) with U64. change (2 ^ 32) with U32. split; [lia|]. intros Hz. rewrite Hz in K1.
  injection K1 as <- <-. discriminate K2.
Qed.

Lemma limit_exactly w u m x o sc :
  Reachable w -> snd (step w (OTx m 0 [] (SetMaxSelected x))) = SOk ->
  operator u w -> fits_queue o (unstake_queue w) ->
  c_score (w_cfg w) = Some sc -> distinct_bounds sc -> N.of_nat (length (w_ul w)) < 2 ^ 32 ->
  (forall c p, c ∈ w_ul w -> w_pv w !! c = Some p -> net_zero_or_one p) ->
  (exists c p, c ∈ w_ul w /\ w_pv w !! c = Some p /\ 0 < net_stake p) ->
  snd (step (fst (step w (OTx m 0 [] (SetMaxSelected x)))) (OTx u 0 [] (UnDelegatePending o))) = SOk
  <-> x < 2 ^ 64 /\ x mod 2 ^ 32 <> 0.
Proof.
  intros Hr Hs Hop Hq Hsc Hd Hl HF He.
  pose proof (store_effect w m 0 [] (SetMaxSelected x) Hr eq_refl Hs) as (_ & H1 & H2). cbn zeta in *.
  assert (Hr' : Reachable (fst (step w (OTx m 0 [] (SetMaxSelected x))))) by (by constructor).
  set (w' := fst (step w (OTx m 0 [] (SetMaxSelected x)))) in *. cbn [stored] in H1.
  assert (Hmx : c_maxsel (w_cfg w') = x) by (by rewrite H1).
  unfold only_config in H2. split.
  - intros H. apply limit_needed in H. by rewrite Hmx in H.
  - intros [Hx1 Hx2]. apply (undel_batch_works w' u o sc Hr').
    + unfold operator. rewrite H1, H2. exact Hop.
    + rewrite H2. exact Hq.
    + by rewrite H1.
    + done.
    + by rewrite H2.
    + by rewrite Hmx.
    + by rewrite Hmx.
    + rewrite H2. exact HF.
    + rewrite H2. exact He.
Qed.

(** * C60 *)
Lemma climb_did w o w' s :
  Acct w -> did w o w' s ->
  reserve (w_pool w') * supply (w_pool w)
  <= reserve (w_pool w) * supply (w_pool w') + reserve (w_pool w) + rewards_in w o s w' * supply (w_pool w').
Proof.
  intros [_ _ HP] D. unfold rewards_in, reward_credited. destruct D; subst_pools; try (cbn; lia).
  - cbn. change (minted a _) with (minted a (w_pool w)). pose proof (mint_ceil a (w_pool w) HP). nia.
  - cbn. pose proof (redeem_ceil x (w_pool w) ltac:(lia)). subst e. nia.
  - cbn. pose proof (mint_ceil a (w_pool w) HP). nia.
  - match goal with H : exec_call _ _ _ = _ |- _ => apply exec_call_frame in H as [l ->] end. cbn. lia.
  - rewrite H. assert (Ef : v * c_fees (w_cfg w) / 10000 = fee_of v w) by reflexivity. rewrite Ef. cbn. lia.
  - unfold white_ok_world. cbn. pose proof (mint_ceil a (w_pool w) HP). nia.
Qed.

Lemma climb_step w o :
  Reachable w ->
  virtual_reserve (fst (step w o)) * ls_supply w
  <= virtual_reserve w * ls_supply (fst (step w o)) + virtual_reserve w
     + rewards_in w o (snd (step w o)) (fst (step w o)) * ls_supply (fst (step w o)).
Proof.
  intros H. apply (climb_did (set_log [] w) o _ (snd (step w o))); [|apply step_did].
  destruct (acct w H). by split.
Qed.

Lemma always_end (P : world -> Prop) w os : always P w os -> P (run w os).
Proof. revert w. induction os as [|p os IH]; intros v Hv; [apply Hv|]. apply IH, Hv. Qed.

Lemma climb_history L os : forall w, Reachable w -> 0 < L -> always (fun v => L <= ls_supply v) w os ->
  let z := run w os in
  (L - N.of_nat (length os)) * virtual_reserve z * ls_supply w
  <= (L * virtual_reserve w + tally rewards_in w os * ls_supply w) * ls_supply z.
Proof.
  induction os as [|o os IH]; intros w Hr HL Hv; [cbn; lia|].
  cbn [always run tally] in *. destruct Hv as [H0 Hv].
  pose proof (IH _ (reach_step w o Hr) HL Hv) as I1. cbn zeta in I1.
  pose proof (climb_step w o Hr) as D1.
  assert (Hp : L <= ls_supply (fst (step w o))) by (destruct os; apply Hv).
  replace (N.of_nat (length (o :: os))) with (N.of_nat (length os) + 1) by (cbn [length]; lia).
  pose proof (always_end _ _ _ Hv) as Hz. cbn beta in Hz.
  assert (D2 : virtual_reserve w * ls_supply (run (fst (step w o)) os) <= virtual_reserve (run (fst (step w o)) os) * ls_supply w).
  { apply (rate_history w (o :: os) Hr). split; [lia|]. clear -Hv HL. revert Hv. generalize (fst (step w o)).
    induction os as [|p os IH]; intros v Hv; cbn [always] in *; (split; [lia|]); [done|]. apply IH, Hv. }
  set (t := tally rewards_in _ os) in *.
  set (q := rewards_in w o _ _) in *.
  set (v := fst (step w o)) in *. set (z := run v os) in *. set (n := N.of_nat (length os)) in *.
  set (r0 := virtual_reserve w) in *. set (s0 := ls_supply w) in *. set (r1 := virtual_reserve v) in *. set (s1 := ls_supply v) in *.
  set (r2 := virtual_reserve z) in *. set (s2 := ls_supply z) in *. clearbody v z r0 s0 r1 s1 r2 s2 n t q.
  clear -I1 D1 D2 H0 Hp HL. destruct (N.le_gt_cases (n + 1) L) as [Hn|Hn]; [|replace (L - (n + 1)) with 0 by lia; lia].
  remember (L - (n + 1)) as k eqn:Ek. replace (L - n) with (k + 1) in I1 by lia. clear Ek Hn n.
  enough (K : (k + 1) * r2 * s0 <= (L * r0 + r0 + (q + t) * s0) * s2) by nia.
  apply (N.mul_le_mono_pos_l _ _ s1); [lia|].
  assert (A1 : s1 * ((k + 1) * r2 * s0) <= (L * (r1 * s0) + t * s1 * s0) * s2).
  { replace (s1 * ((k + 1) * r2 * s0)) with ((k + 1) * r2 * s1 * s0) by ring.
    replace ((L * (r1 * s0) + t * s1 * s0) * s2) with ((L * r1 + t * s1) * s2 * s0) by ring. by apply N.mul_le_mono_r. }
  etrans; [exact A1|].
  replace (s1 * ((L * r0 + r0 + (q + t) * s0) * s2)) with ((s1 * L * r0 + s1 * r0 + s1 * q * s0 + t * s1 * s0) * s2) by ring.
  apply N.mul_le_mono_r, N.add_le_mono_r.
  etrans; [apply N.mul_le_mono_l, D1|].
  replace (L * (r0 * s1 + r0 + q * s1)) with (s1 * L * r0 + L * r0 + L * (s1 * q)) by ring.
  replace (s1 * q * s0) with (s0 * (s1 * q)) by ring.
  apply N.add_le_mono; [apply N.add_le_mono_l|]; by apply N.mul_le_mono_r.
Qed.

Lemma run_snoc w os o : run w (os ++ [o]) = fst (step (run w os) o).
Proof. revert w. induction os as [|p os IH]; intros w; [done|]. cbn [app run]. apply IH. Qed.
Lemma tally_snoc f w os o :
  tally f w (os ++ [o]) = tally f w os + f (run w os) o (snd (step (run w os) o)) (fst (step (run w os) o)).
Proof. revert w. induction os as [|p os IH]; intros w; cbn [app run tally]; [lia|]. rewrite IH. lia. Qed.
Lemma always_snoc (P : world -> Prop) w os o : always P w os -> P (fst (step (run w os) o)) -> always P w (os ++ [o]).
Proof.
  revert w. induction os as [|p os IH]; intros w H K; cbn [app run always] in *.
  - split; [apply H|]. split; [exact K|exact I].
  - split; [apply H|]. apply IH; [apply H|exact K].
Qed.

Lemma loss_history L w os u a :
  Reachable w -> 0 < L -> always (fun v => L <= ls_supply v) w os ->
  let v := run w os in let z := fst (step v (OTx u a [] Delegate)) in
  snd (step v (OTx u a [] Delegate)) = SOk ->
  exists m, ls_balance u z = ls_balance u v + m /\
  (a - egld_worth z m - 1) * ((L - N.of_nat (length os) - 1) * ls_supply w)
  <= L * virtual_reserve w + tally rewards_in w os * ls_supply w.
Proof.
  intros Hr HL Hv v z Hs. pose proof (rc_run w os Hr) as Hr'. fold v in Hr'.
  pose proof (always_end _ _ _ Hv) as Lv. cbn beta in Lv. fold v in Lv.
  pose proof (acct v Hr') as [_ _ HP]. change (ls_supply v <= virtual_reserve v) in HP.
  destruct (mint_exact v u a [] Hr' Hs) as (m & H1 & _ & _ & H2 & _ & H3 & H4).
  specialize (H2 ltac:(lia)). fold z in H1, H3, H4. exists m. split; [exact H1|].
  assert (Lz : L <= ls_supply z) by lia.
  pose proof (climb_history L (os ++ [OTx u a [] Delegate]) w Hr HL (always_snoc _ _ _ _ Hv Lz)) as C. cbn zeta in C.
  rewrite run_snoc, tally_snoc in C. fold v in C. fold z in C.
  replace (rewards_in _ _ _ _) with 0 in C by (by rewrite Hs). rewrite app_length in C. cbn [length] in C.
  replace (N.of_nat (length os + 1)) with (N.of_nat (length os) + 1) in C by lia.
  rewrite N.sub_add_distr, N.add_0_r in C. unfold egld_worth.
  pose proof (N.mul_succ_div_gt (m * virtual_reserve z) (ls_supply z) ltac:(lia)) as He.
  set (e := m * virtual_reserve z / ls_supply z) in *.
  assert (Hx : (a - e - 1) * ls_supply z <= virtual_reserve z).
  { clear -He H2 H3 H4 HL Lz HP. assert (a * ls_supply z < (m + 1) * virtual_reserve z) by (rewrite H3, H4; nia).
    destruct (N.le_gt_cases a (e + 1)) as [Ha|Ha]; [replace (a - e - 1) with 0 by lia; lia|].
    remember (a - e - 1) as x eqn:Ex. replace a with (x + e + 1) in * by lia. nia. }
  clear -Hx C Lz HL.
  set (x := a - e - 1) in *. set (k := L - N.of_nat (length os) - 1) in *. set (t := tally rewards_in w os) in *.
  set (r2 := virtual_reserve z) in *. set (s2 := ls_supply z) in *. set (r0 := virtual_reserve w) in *. set (s0 := ls_supply w) in *.
  clearbody x k t r2 s2 r0 s0.
  apply (N.mul_le_mono_pos_r _ _ s2); [lia|].
  etrans; [|exact C].
  replace (x * (k * s0) * s2) with (x * s2 * (k * s0)) by ring. replace (k * r2 * s0) with (r2 * (k * s0)) by ring.
  by apply N.mul_le_mono_r.
Qed.

Lemma loss_small w os u a :
  Reachable w -> always (fun v => ONE_EGLD <= ls_supply v) w os ->
  virtual_reserve w <= 2 * ls_supply w -> N.of_nat (length os) < 10 ^ 17 -> tally rewards_in w os <= 10 ^ 26 ->
  let v := run w os in let z := fst (step v (OTx u a [] Delegate)) in
  snd (step v (OTx u a [] Delegate)) = SOk ->
  exists m, ls_balance u z = ls_balance u v + m /\ a < egld_worth z m + 2 * 10 ^ 8.
Proof.
  intros Hr Hv Hp Hn Ht v z Hs.
  destruct (loss_history ONE_EGLD w os u a Hr ltac:(done) Hv Hs) as (m & H1 & H2). exists m. split; [exact H1|].
  assert (H0 : ONE_EGLD <= ls_supply w) by (destruct os; apply Hv).
  fold v in H2. fold z in H2. remember (egld_worth z m) as e eqn:Ee. clear Ee.
  remember (N.of_nat (length os)) as n eqn:En. clear En. remember (tally rewards_in w os) as t eqn:Et. clear Et.
  clear -H2 H0 Hp Hn Ht. revert H2 H0 Hp Hn Ht. generalize (virtual_reserve w) (ls_supply w). intros r s H2 H0 Hp Hn Ht.
  change (10 ^ 17) with 100000000000000000 in *. change (10 ^ 26) with 100000000000000000000000000 in *.
  change (2 * 10 ^ 8) with 200000000. unfold ONE_EGLD in *.
  destruct (N.lt_ge_cases a (e + 200000000)) as [|Hg]; [done|]. exfalso.
  remember (a - e - 1) as x eqn:Ex. assert (199999999 <= x) by lia. clear Ex Hg.
  remember (1000000000000000000 - n - 1) as k eqn:Ek. assert (900000000000000000 <= k) by lia. clear Ek Hn.
  assert (K1 : 199999999 * (900000000000000000 * s) <= x * (k * s)) by (apply N.mul_le_mono; [done|by apply N.mul_le_mono_r]).
  assert (K2 : t * s <= 100000000000000000000000000 * s) by (by apply N.mul_le_mono_r). lia.
Qed.
