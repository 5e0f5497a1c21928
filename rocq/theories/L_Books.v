(** L_Books.v — books over whole histories. *)
From Verif Require Export L_Worth Spec3.

Lemma attached_comes k r : attached k r = comes_with (k, r).
Proof. by destruct k, r. Qed.

Lemma deploy_shape w : Deployed w ->
  exists g epoch owner, w = World g (Pool 0 0 0 0 0 0 0) [] [] ∅ ∅ 0 ∅ ∅ ∅ 0 epoch owner [] [] ∅ [].
Proof.
  intros (owner & acc & fees & rpe & minr & maxsel & maxaddr & unbond & epoch & H). unfold deploy in H.
  apply rbind_ok in H as [[] [E H]]. apply rbind_ok in H as [g [E1 H]]. rstep H. eauto.
Qed.

Lemma deployed_reach w : Deployed w -> Reachable w.
Proof. intros (?&?&?&?&?&?&?&?&?&H). exact (reach_deploy _ _ _ _ _ _ _ _ _ _ H). Qed.

(** * Unbooked EGLD *)
Definition pots (w : world) : N := pend (w_pool w) + withdrawn (w_pool w) + fees_res (w_pool w).

Lemma books_did w o w' s :
  Acct w -> did w o w' s -> w_egld w' + pots w = pots w' + w_egld w + arrives_unbooked w o s w'.
Proof.
  intros [H1 _ _] D. unfold pots. destruct D; subst_pools; cbn [arrives_unbooked].
  - destruct s, o; try done; try destruct ep; cbn; lia.
  - pose proof (split_facts (pfu (w_pool w)) a) as Hs. cbn zeta in Hs. destruct Hs as (Hs1 & Hs2 & _). cbn. lia.
  - pose proof (split_facts (pend (w_pool w)) (redeemed x (w_pool w))) as Hs. cbn zeta in Hs. destruct Hs as (Hs1 & Hs2 & _).
    um_clean. subst e i r. cbn. lia.
  - subst s. cbn. lia.
  - cbn. lia.
  - cbn. lia.
  - cbn. lia.
  - cbn. lia.
  - cbn. lia.
  - cbn. lia.
  - cbn. lia.
  - cbn. lia.
  - cbn. lia.
  - cbn. lia.
  - destruct ep; try done; cbn; lia.
  - cbn. lia.
  - cbn. lia.
  - cbn. lia.
  - cbn. lia.
  - match goal with H : exec_call _ _ _ = _ |- _ => apply exec_call_frame in H as [l ->] end. cbn. lia.
  - rewrite H, <- attached_comes. cbn. lia.
  - cbn. lia.
  - cbn. lia.
  - cbn. lia.
  - cbn. lia.
  - cbn. lia.
  - cbn. lia.
  - cbn. lia.
  - cbn. lia.
  - unfold white_ok_world. cbn. lia.
  - cbn. lia.
  - cbn. lia.
  - cbn. lia.
  - cbn. lia.
  - cbn. lia.
  - cbn. lia.
  - cbn. lia.
  - cbn. lia.
  - cbn. lia.
  - rewrite H, <- attached_comes. cbn. lia.
Qed.

Lemma acct_log w : Acct w -> Acct (set_log [] w).
Proof. intros [? ? ?]. by split. Qed.

(** From step-wise to whole histories. *)
Lemma tally_history (m : world -> N) (g : world -> op -> status -> world -> N) (h : world -> op -> status -> world -> N) :
  (forall w o, Reachable w -> m (fst (step w o)) + g w o (snd (step w o)) (fst (step w o))
                            = m w + h w o (snd (step w o)) (fst (step w o))) ->
  forall os w, Reachable w -> m (run w os) + tally g w os = m w + tally h w os.
Proof.
  intros Hs. induction os as [|o os IH]; intros w Hr; [done|]. cbn [run tally].
  specialize (IH _ (reach_step w o Hr)). specialize (Hs w o Hr). lia.
Qed.

Lemma books_history w os :
  Deployed w ->
  contract_egld (run w os)
  = pending_egld (run w os) + total_withdrawn (run w os) + fees_reserve (run w os) + tally arrives_unbooked w os.
Proof.
  intros Hd. assert (Hr := deployed_reach w Hd).
  assert (Hg : forall os v, Reachable v -> w_egld (run v os) + pots v = pots (run v os) + w_egld v + tally arrives_unbooked v os).
  { clear. induction os as [|o os IH]; intros v Hv; [cbn; lia|]. cbn [run tally].
    specialize (IH _ (reach_step v o Hv)).
    pose proof (books_did (set_log [] v) o _ _ (acct_log _ (acct v Hv)) (step_did v o)) as H.
    change (pots (set_log [] v)) with (pots v) in H. change (w_egld (set_log [] v)) with (w_egld v) in H.
    change (arrives_unbooked (set_log [] v) o ?s ?x) with (arrives_unbooked v o s x) in H. lia. }
  specialize (Hg os w Hr). destruct (deploy_shape w Hd) as (g & e & ow & ->).
  unfold contract_egld, pending_egld, total_withdrawn, fees_reserve, pots in *. cbn in Hg |- *. lia.
Qed.

(** * Logs *)
Definition hush (f : eff -> N) : Prop :=
  forall e, match e with XEgld _ _ | XDeposit _ _ => True | _ => f e = 0 end.
Lemma deposited_quiet : hush deposited. Proof. by intros []. Qed.
Lemma transferred_quiet : hush transferred. Proof. by intros []. Qed.
Lemma moved_quiet : hush (fun e => transferred e + deposited e). Proof. by intros []. Qed.

Lemma sum_map_calls {A} (f : eff -> N) (g : A -> call) ds : hush f -> sumN (map f (map (fun d => XCall (g d)) ds)) = 0.
Proof. intros Hf. induction ds as [|d ds IH]; [done|]. cbn. rewrite (Hf (XCall (g d))). exact IH. Qed.

Lemma back_log_quiet f u g : hush f -> sumN (map f (back_log u g)) = 0.
Proof. intros Hf. destruct g as [[n a]|]; [|done]. cbn. by rewrite (Hf (XUst u n a)). Qed.

Lemma maybe_quiet f caller i r w w3 :
  hush f -> w_log w = [] -> ust_maybe caller r (egld_paid caller i w) w3 ->
  sumN (map f (w_log w3)) = if 0 <? i then f (XEgld caller i) else 0.
Proof.
  intros Hf Hl Hm. rewrite egld_paid_eq in Hm. destruct Hm as [Hr|n w2 Hr Ht Hi].
  - cbn. rewrite Hl. destruct (0 <? i); cbn; lia.
  - apply ust_issue_frame in Hi as (? & ? & ? & ? & ->). cbn. rewrite Hl.
    rewrite map_app, sumN_app. cbn. rewrite (Hf (XUst caller n r)). destruct (0 <? i); cbn; lia.
Qed.

Ltac lg Hl := cbn; rewrite ?Hl; cbn;
  rewrite ?map_app, ?sumN_app, ?back_log_quiet, ?sum_map_calls
    by first [exact deposited_quiet | exact transferred_quiet]; cbn.

(** * Fees *)
Lemma fees_did w o w' s :
  w_log w = [] -> did w o w' s ->
  fees_res (w_pool w') + fee_handed_over w o s w' = fees_res (w_pool w) + fee_earned w o s w'.
Proof.
  intros Hl D. unfold fee_handed_over, fee_earned. destruct D; subst_pools; cbn [fee_earned];
    try (lg Hl; lia);
    try (match goal with H : nth_error _ _ = Some (?k, ?r) |- _ => rewrite H; try destruct r; lg Hl; try done; lia end).
  - rewrite Hl. destruct s, o; try done; cbn; lia.
  - unshelve epose proof (maybe_quiet deposited _ _ _ _ _ deposited_quiet _ H9) as HQ; [exact Hl|].
    cbn. rewrite map_app, sumN_app, HQ. cbn. destruct (0 <? i); cbn; lia.
  - match goal with H : exec_call _ _ _ = _ |- _ => apply exec_call_frame in H as [l ->] end. lg Hl. lia.
  - rewrite H. lg Hl. destruct r as [|v]; cbn in *; [lia|]. subst v. rewrite N.mul_0_l. cbn. lia.
  - rewrite H. lg Hl. unfold fee_of. change BPS with 10000. lia.
  - rewrite H. lg Hl. destruct r; [|done]. destruct (0 <? a); cbn; lia.
Qed.

Lemma fees_history w os :
  Deployed w -> fees_reserve (run w os) + tally fee_handed_over w os = tally fee_earned w os.
Proof.
  intros Hd. pose proof (tally_history (fun v => fees_res (w_pool v)) fee_handed_over fee_earned) as H.
  specialize (H (fun v o _ => fees_did (set_log [] v) o _ _ eq_refl (step_did v o)) os w (deployed_reach w Hd)).
  destruct (deploy_shape w Hd) as (g & e & ow & ->). cbn in H |- *. unfold fees_reserve. lia.
Qed.

(** * Conservation *)
Definition whole (w : world) : N := w_egld w + at_providers w + under_way w + on_way_back w.

Lemma carries_deleg ds : sumN (map carries (map kdeleg ds)) = damts ds.
Proof. unfold damts. rewrite map_map. f_equal. Qed.
Lemma carries_undel ds : sumN (map carries (map kundel ds)) = 0.
Proof. induction ds as [|d ds IH]; [done|]. cbn. exact IH. Qed.

Lemma live_insert (m : gmap addr (N * N)) c x u :
  gsum (fun _ y => fst y + snd y) (<[c := (x, u)]> m) + fst (default (0, 0) (m !! c)) + snd (default (0, 0) (m !! c))
  = gsum (fun _ y => fst y + snd y) m + x + u.
Proof.
  pose proof (gsum_insert (fun _ y => fst y + snd y) m c (x, u)) as H. unfold gat in H. cbn in H.
  destruct (m !! c) as [[a b]|]; cbn in *; lia.
Qed.

Lemma exec_whole w i out k r w1 :
  nth_error (w_calls w) i = Some k -> exec_call k out w = Some (r, w1) ->
  gsum (fun _ y => fst y + snd y) (w_live w1) + comes_with (k, r)
   + (match out with Some _ => match k with KIssue _ _ a => a | _ => 0 end | None => 0 end)
  = gsum (fun _ y => fst y + snd y) (w_live w) + carries k
   + (match out with Some v => match k with KClaim _ => v | _ => 0 end | None => 0 end).
Proof.
  intros _ H. unfold exec_call, live_of in H. destruct out as [v|].
  - destruct k as [c a|c a|c|l|c a who|b who a];
      try (pose proof (live_insert (w_live w) c) as HI; destruct (default (0, 0) (w_live w !! c)) as [x u] eqn:E);
      try (destruct (_ <=? _) eqn:B); try discriminate H; injection H as <- <-; cbn; try lia.
    + specialize (HI (x + a) u). cbn in HI. lia.
    + specialize (HI (x - a) (u + a)). cbn in HI. lia.
    + specialize (HI x (u - v)). cbn in HI. lia.
    + specialize (HI (x + a) u). cbn in HI. lia.
  - injection H as <- <-. cbn. by destruct k.
Qed.

Lemma whole_did w o w' s :
  Acct w -> w_log w = [] -> did w o w' s -> whole w' + egld_out w o s w' = whole w + egld_in w o s w'.
Proof.
  intros [HA _ _] Hl D. unfold whole, egld_out, egld_in, at_providers, under_way, on_way_back.
  destruct D; subst_pools;
    try (match goal with H : nth_error (w_res w) ?i = Some (?k, ?r) |- _ =>
           pose proof (sumN_drop_nth comes_with i (w_res w) (k, r) H) as HD; try (is_var r; destruct r); try discriminate end);
    try (lg Hl; rewrite ?map_app, ?sumN_app, ?carries_deleg, ?carries_undel; cbn in *; lia).
  - rewrite Hl. destruct s, o; try done; try destruct o; cbn; lia.
  - unshelve epose proof (maybe_quiet transferred _ _ _ _ _ transferred_quiet _ H9) as HQ; [exact Hl|].
    unshelve epose proof (maybe_quiet deposited _ _ _ _ _ deposited_quiet _ H9) as HQ2; [exact Hl|].
    cbn. rewrite !map_app, !sumN_app, HQ, HQ2. um_clean. cbn. destruct (0 <? i) eqn:B; lia.
  - pose proof (exec_whole w i out k r w1 H H0) as HE. rewrite H.
    pose proof (sumN_drop_nth carries i (w_calls w) k H) as HD.
    match goal with H : exec_call _ _ _ = _ |- _ => apply exec_call_frame in H as [l ->] end.
    cbn in *. rewrite Hl, map_app, sumN_app. cbn. destruct out; destruct k; cbn in *; lia.
  - lg Hl. rewrite attached_comes. lia.
  - lg Hl. rewrite attached_comes. lia.
  - lg Hl. destruct (0 <? a) eqn:B; cbn in *; lia.
  - lg Hl. pose proof (live_insert (w_live w) c x u) as HI. unfold live_of. lia.
  - lg Hl. rewrite attached_comes. lia.
  - lg Hl. rewrite attached_comes. lia.
Qed.

Lemma whole_history w os :
  Deployed w ->
  contract_egld (run w os) + at_providers (run w os) + under_way (run w os) + on_way_back (run w os) + tally egld_out w os
  = tally egld_in w os.
Proof.
  intros Hd. pose proof (tally_history whole egld_out egld_in) as H.
  specialize (H (fun v o Hr => whole_did (set_log [] v) o _ _ (acct_log _ (acct v Hr)) eq_refl (step_did v o)) os w (deployed_reach w Hd)).
  destruct (deploy_shape w Hd) as (g & e & ow & ->). unfold whole in H. unfold contract_egld.
  unfold at_providers, under_way, on_way_back in H |- *. cbn [w_egld w_live w_calls w_res map sumN] in H |- *.
  rewrite gsum_empty in H. lia.
Qed.

(** * The value of a holding *)
Lemma worth_mono b b' R S R' S' :
  b <= b' -> 0 < S -> 0 < S' -> R * S' <= R' * S -> b * R / S <= b' * R' / S'.
Proof.
  intros Hb HS HS' Hr. apply N.div_le_lower_bound; [lia|].
  pose proof (N.mul_div_le (b * R) S ltac:(lia)) as Hq. set (q := b * R / S) in *. clearbody q.
  apply (N.mul_le_mono_pos_l _ _ S HS).
  assert (S * (S' * q) <= S' * (b * R)) by nia. assert (S' * (b * R) <= b * (R' * S)) by nia. nia.
Qed.

Lemma holder_step w o u :
  Reachable w -> u <> SELF -> initiator o <> Some u ->
  egld_worth w (ls_balance u w) <= egld_worth (fst (step w o)) (ls_balance u (fst (step w o))).
Proof.
  intros Hr Hu Hi. destruct (bystander w o u Hu Hi) as [Hb _].
  pose proof (held_le_supply w u Hr) as H1. pose proof (held_le_supply _ u (reach_step w o Hr)) as H2.
  pose proof (rate_step w o Hr) as H3. unfold egld_worth.
  destruct (N.eqb_spec (ls_balance u w) 0) as [E|E].
  - rewrite E, N.mul_0_l. destruct (N.eqb_spec (ls_supply w) 0) as [E2|E2]; [rewrite E2|rewrite N.div_0_l by done]; apply N.le_0_l.
  - apply worth_mono; lia.
Qed.

Lemma holder_history w os u :
  Reachable w -> u <> SELF -> Forall (fun o => initiator o <> Some u) os ->
  egld_worth w (ls_balance u w) <= egld_worth (run w os) (ls_balance u (run w os)).
Proof.
  intros Hr Hu HF. revert w Hr. induction HF as [|o os Ho _ IH]; intros w Hr; [cbn; lia|].
  cbn [run]. etrans; [by apply (holder_step w o u)|]. apply IH. by constructor.
Qed.

(** * Provider records *)
Lemma add_psts_at ds m c p :
  m !! c = Some p -> exists p', add_psts ds m !! c = Some p' /\ exists y, p' = set_p_pst y p /\ p_pst p <= y.
Proof.
  revert m p. induction ds as [|d ds IH]; intros m p Hm.
  - exists p. split; [done|]. exists (p_pst p). split; [by destruct p|lia].
  - change (add_psts (d :: ds) m) with (add_psts ds (add_pst d m)).
    destruct (decide (c = d_addr d)) as [->|Hn].
    + destruct (IH (add_pst d m) (set_p_pst (p_pst p + d_amt d) p)) as (p' & E & y & -> & Hy).
      { unfold add_pst. rewrite Hm. apply lookup_insert. }
      exists (set_p_pst y (set_p_pst (p_pst p + d_amt d) p)). split; [exact E|]. exists y. cbn in Hy. split; [done|lia].
    + apply IH. unfold add_pst. destruct (m !! d_addr d); [|done]. by rewrite lookup_insert_ne.
Qed.
Lemma add_puns_at ds m c p :
  m !! c = Some p -> exists p', add_puns ds m !! c = Some p' /\ exists y, p' = set_p_pun y p /\ p_pun p <= y.
Proof.
  revert m p. induction ds as [|d ds IH]; intros m p Hm.
  - exists p. split; [done|]. exists (p_pun p). split; [by destruct p|lia].
  - change (add_puns (d :: ds) m) with (add_puns ds (add_pun d m)).
    destruct (decide (c = d_addr d)) as [->|Hn].
    + destruct (IH (add_pun d m) (set_p_pun (p_pun p + d_amt d) p)) as (p' & E & y & -> & Hy).
      { unfold add_pun. rewrite Hm. apply lookup_insert. }
      exists (set_p_pun y (set_p_pun (p_pun p + d_amt d) p)). split; [exact E|]. exists y. cbn in Hy. split; [done|lia].
    + apply IH. unfold add_pun. destruct (m !! d_addr d); [|done]. by rewrite lookup_insert_ne.
Qed.


Lemma lookup_upd (m : gmap N prov) c d x p p' :
  m !! d = Some p -> <[c := x]> m !! d = Some p' -> (c = d /\ p' = x) \/ (c <> d /\ p' = p).
Proof.
  intros H H'. destruct (decide (c = d)) as [->|Hn].
  - rewrite lookup_insert in H'. left. split; [done|congruence].
  - rewrite lookup_insert_ne in H' by done. right. split; [done|congruence].
Qed.

Lemma records_did w o w' s c p p' :
  did w o w' s -> w_pv w !! c = Some p -> w_pv w' !! c = Some p' -> books_move w o c p p'.
Proof.
  intros D Hp Hp'. unfold books_move. cbn.
  assert (Hsame : w_pv w' = w_pv w -> books p' = books p) by (intros E; rewrite E, Hp in Hp'; congruence).
  destruct D; subst_pools; try (left; apply Hsame; reflexivity).
  - left. apply Hsame. by um_clean.
  - right; right; left. destruct (add_psts_at ds (w_pv w) c p Hp) as (q & E & y & -> & Hy).
    cbn in Hp'. rewrite E in Hp'. injection Hp' as <-. by exists caller, o, y.
  - right; right; right; left. destruct (add_puns_at ds (w_pv w) c p Hp) as (q & E & y & -> & Hy).
    cbn in Hp'. rewrite E in Hp'. injection Hp' as <-. by exists caller, o, y.
  - cbn in Hp'. destruct (lookup_upd _ _ _ _ _ _ Hp Hp') as [[-> ->]|[? ->]]; [congruence|by left].
  - cbn in Hp'. destruct (lookup_upd _ _ _ _ _ _ Hp Hp') as [[-> ->]|[? ->]]; [|by left].
    left. rewrite Hp in H1. by injection H1 as ->.
  - cbn in Hp'. destruct (lookup_upd _ _ _ _ _ _ Hp Hp') as [[-> ->]|[? ->]]; [|by left].
    right; left. rewrite Hp in H0. injection H0 as ->. do 6 eexists. done.
  - left. apply Hsame. match goal with H : exec_call _ _ _ = _ |- _ => apply exec_call_frame in H as [l ->] end. done.
  - cbn in Hp'. destruct (lookup_upd _ _ _ _ _ _ Hp Hp') as [[-> ->]|[? ->]]; [|by left].
    rewrite Hp in H1. injection H1 as ->. do 6 right. left. exists a. split_and!; try done. exists i, r. by destruct r.
  - cbn in Hp'. destruct (lookup_upd _ _ _ _ _ _ Hp Hp') as [[-> ->]|[? ->]]; [|by left].
    rewrite Hp in H1. injection H1 as ->. do 7 right. left. exists a. split_and!; try done. exists i, r. by destruct r.
  - cbn in Hp'. destruct (lookup_upd _ _ _ _ _ _ Hp Hp') as [[-> ->]|[? ->]]; [|by left].
    rewrite Hp in H1. injection H1 as ->. do 4 right. left. exists a. split_and!; try done. exists i, r. by destruct r.
  - cbn in Hp'. destruct (lookup_upd _ _ _ _ _ _ Hp Hp') as [[-> ->]|[? ->]]; [|by left].
    rewrite Hp in H1. injection H1 as ->. do 5 right. left. exists a. split_and!; try done. exists i, r. by destruct r.
  - cbn in Hp'. destruct (lookup_upd _ _ _ _ _ _ Hp Hp') as [[-> ->]|[? ->]]; [|by left].
    rewrite Hp in H2. injection H2 as ->. do 8 right. left. by exists i, v.
  - cbn in Hp'. destruct (lookup_upd _ _ _ _ _ _ Hp Hp') as [[-> ->]|[? ->]]; [|by left].
    rewrite Hp in H2. injection H2 as ->. do 9 right. exists a, caller. split; [|done]. exists i, r. by destruct r.
  - cbn in Hp'. destruct (decide (c0 = c)) as [->|Hn]; [by rewrite lookup_delete in Hp'|].
    rewrite lookup_delete_ne in Hp' by done. left. congruence.
Qed.

Lemma records_step w o c p p' :
  w_pv w !! c = Some p -> w_pv (fst (step w o)) !! c = Some p' -> books_move w o c p p'.
Proof. exact (records_did (set_log [] w) o _ _ c p p' (step_did w o)). Qed.

Lemma record_gone w o c :
  is_Some (w_pv w !! c) -> w_pv (fst (step w o)) !! c = None -> exists a u, delivers w o (KWhite c a u) false.
Proof.
  intros [p Hp] Hn. change (w_pv (set_log [] w) !! c = Some p) in Hp.
  change (exists a u, delivers (set_log [] w) o (KWhite c a u) false).
  pose proof (step_did w o) as D. remember (set_log [] w) as v eqn:Ev. remember (fst (step w o)) as w' eqn:Ew. clear Ev Ew.
  assert (Hsame : w_pv w' = w_pv v -> False) by (intros E; congruence).
  assert (Hins : forall (d : N) (x : prov) (m : gmap N prov), m !! c = Some p -> <[d := x]> m !! c = None -> False).
  { intros d x m H1 H2. destruct (decide (d = c)) as [->|Hd];
      [rewrite lookup_insert in H2; done|rewrite lookup_insert_ne in H2 by done; congruence]. }
  remember (snd (step w o)) as s eqn:Es0. clear Es0.
  destruct D; subst_pools; try (exfalso; apply Hsame; reflexivity);
    try (exfalso; cbn in Hn; by eapply (Hins _ _ _ Hp Hn)).
  - exfalso. apply Hsame. by um_clean.
  - destruct (add_psts_at ds (w_pv v) c p Hp) as (q & E & _). cbn in Hn. congruence.
  - destruct (add_puns_at ds (w_pv v) c p Hp) as (q & E & _). cbn in Hn. congruence.
  - exfalso. apply Hsame. match goal with H : exec_call _ _ _ = _ |- _ => apply exec_call_frame in H as [l ->] end. done.
  - cbn in Hn. destruct (decide (c0 = c)) as [->|Hd]; [|rewrite lookup_delete_ne in Hn by done; congruence].
    exists a, caller, i, r. destruct r; done.
Qed.

Lemma record_new w o c p' :
  w_pv w !! c = None -> w_pv (fst (step w o)) !! c = Some p' ->
  exists u x admin total cap nodes apy, o = OTx u x [] (Whitelist c admin total cap nodes apy) /\ snd (step w o) = SOk /\
    p' = Prov admin total cap nodes apy 0 0 true 0 0.
Proof.
  intros Hp Hn. change (w_pv (set_log [] w) !! c = None) in Hp.
  pose proof (step_did w o) as D. remember (set_log [] w) as v eqn:Ev. remember (fst (step w o)) as w' eqn:Ew.
  remember (snd (step w o)) as s eqn:Es0. clear Ev Ew Es0.
  assert (Hsame : w_pv w' = w_pv v -> False) by (intros E; congruence).
  assert (Hins : forall (d : N) (x q : prov) (m : gmap N prov), m !! c = None -> m !! d = Some q -> <[d := x]> m !! c = Some p' -> False).
  { intros d x q m H1 H3 H2. rewrite lookup_insert_ne in H2 by congruence. congruence. }
  destruct D; subst_pools; try (exfalso; apply Hsame; reflexivity);
    try (exfalso; cbn in Hn; by eapply (Hins _ _ _ _ Hp ltac:(eassumption) Hn)).
  - exfalso. apply Hsame. by um_clean.
  - cbn in Hn. rewrite add_psts_lookup, Hp in Hn. done.
  - cbn in Hn. rewrite add_puns_lookup, Hp in Hn. done.
  - cbn in Hn. destruct (decide (c0 = c)) as [->|Hd]; [|rewrite lookup_insert_ne in Hn by done; congruence].
    rewrite lookup_insert in Hn. injection Hn as <-. do 7 eexists. split_and!; reflexivity.
  - exfalso. apply Hsame. match goal with H : exec_call _ _ _ = _ |- _ => apply exec_call_frame in H as [l ->] end. done.
  - cbn in Hn. apply lookup_delete_Some in Hn as [_ Hn]. congruence.
Qed.
