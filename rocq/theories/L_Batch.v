(** L_Batch.v — the batch endpoints and the replies to their calls. *)
From Verif Require Export L_Tok.

(** * Configuration bounds *)
Definition caps_ok (p : prov) : Prop := p_cap p = 0 \/ p_total p <= p_cap p.
Definition CfgOk (w : world) : Prop :=
  1 <= c_maxsel (w_cfg w) /\ 1 <= c_maxaddr (w_cfg w) < U32 /\ map_Forall (fun _ p => caps_ok p) (w_pv w).

Lemma caps_ins (m : gmap N prov) c p : map_Forall (fun _ p => caps_ok p) m -> caps_ok p ->
  map_Forall (fun _ p => caps_ok p) (<[c := p]> m).
Proof. intros. by apply map_Forall_insert_2. Qed.

Lemma caps_at (m : gmap N prov) c p : map_Forall (fun _ p => caps_ok p) m -> m !! c = Some p -> caps_ok p.
Proof. intros H E. exact (H c p E). Qed.

Lemma cfgok_did w o w' s : CfgOk w -> did w o w' s -> CfgOk w'.
Proof.
  intros (H1 & H2 & H3) D. unfold CfgOk.
  destruct D; subst_pools; try (cbn; split_and!; try tauto; fail);
    try (cbn; split_and!; try tauto; apply caps_ins; [exact H3|];
      match goal with E : w_pv w !! _ = Some _ |- _ => pose proof (caps_at _ _ _ H3 E) as K; unfold caps_ok in *; cbn; tauto end).
  - um_clean. cbn. tauto.
  - cbn. split_and!; try tauto. intros c' p Hp. cbn in Hp. rewrite add_psts_lookup in Hp.
    destruct (w_pv w !! c') as [q|] eqn:E; [|done]. cbn in Hp. injection Hp as <-. pose proof (caps_at _ _ _ H3 E) as K. exact K.
  - cbn. split_and!; try tauto. intros c' p Hp. cbn in Hp. rewrite add_puns_lookup in Hp.
    destruct (w_pv w !! c') as [q|] eqn:E; [|done]. cbn in Hp. injection Hp as <-. pose proof (caps_at _ _ _ H3 E) as K. exact K.
  - cbn. split_and!; try tauto. apply caps_ins; [exact H3|]. unfold caps_ok; cbn. tauto.
  - cbn. match goal with H : match ep with _ => _ end |- _ =>
        clear -H H1 H2 H3; destruct ep; try (by destruct H); first [rewrite H|destruct H as [-> H]]; cbn; split_and!; tauto end.
  - match goal with H : exec_call _ _ _ = _ |- _ => apply exec_call_frame in H as [l ->] end. cbn. tauto.
  - cbn. split_and!; try tauto. by apply map_Forall_delete.
  - cbn. destruct ls; cbn; tauto.
  - cbn. destruct ls; cbn; tauto.
Qed.

Lemma cfgok w : Reachable w -> CfgOk w.
Proof.
  apply reach_ind.
  - intros owner acc fees rpe minr maxsel maxaddr unbond epoch v H. unfold deploy in H. rstep H. unfold init in *.
    repeat match goal with E : rbind _ _ = Ok _ |- _ => rstep E end. unfold CfgOk. cbn.
    repeat match goal with H : _ && _ = true |- _ => apply andb_true_iff in H as [? ?] end.
    split_and!; try lia. apply map_Forall_empty.
  - intros v H. exact H.
  - intros v o v' s _. apply cfgok_did.
Qed.

(** * Order of the provider lists after a batch *)
Lemma set_remove_not_in c l : c ∉ set_remove c l.
Proof. rewrite set_remove_in. tauto. Qed.

Lemma move_to_back_eq c l : move_to_back c l = set_remove c l ++ [c].
Proof.
  unfold move_to_back, set_insert. destruct (existsb (N.eqb c) (set_remove c l)) eqn:E; [|done].
  apply existsb_in in E. by apply set_remove_not_in in E.
Qed.

Definition not_served (s : list N) (c : N) : bool := negb (existsb (N.eqb c) s).

Lemma to_back_eq ds l :
  NoDup (map d_addr ds) ->
  to_back ds l = List.filter (not_served (map d_addr ds)) l ++ map d_addr ds.
Proof.
  revert l. induction ds as [|d r IH]; intros l Hn; cbn [to_back map].
  - rewrite app_nil_r. induction l as [|x l IHl]; [done|]. cbn [List.filter]. change (not_served [] x) with true. cbn iota. by rewrite <- IHl.
  - change (to_back (d :: r) l) with (to_back r (move_to_back (d_addr d) l)).
    cbn in Hn. apply list.NoDup_cons in Hn as [Hd Hn]. rewrite IH by done. rewrite move_to_back_eq, filter_app.
    rewrite <- app_assoc. f_equal.
    + unfold set_remove. clear. induction l as [|x l IHl]; cbn; [done|].
      unfold not_served at 2. cbn. rewrite (N.eqb_sym x). destruct (d_addr d =? x) eqn:E; cbn.
      * exact IHl.
      * fold (not_served (map d_addr r) x). destruct (not_served (map d_addr r) x); [by f_equal|done].
    + cbn. unfold not_served. destruct (existsb (N.eqb (d_addr d)) (map d_addr r)) eqn:E; [|done].
      by apply existsb_in in E.
Qed.

(** * Batches *)
Definition batch_list (ds : list dsel) : list (N * N) := map (fun d => (d_addr d, d_amt d)) ds.
Lemma bl_fst ds : map fst (batch_list ds) = map d_addr ds.
Proof. unfold batch_list. rewrite map_map. done. Qed.
Lemma bl_snd ds : map snd (batch_list ds) = map d_amt ds.
Proof. unfold batch_list. rewrite map_map. done. Qed.
Lemma bl_for c ds : amount_for c (batch_list ds) = dtos c ds.
Proof. unfold amount_for, batch_list, dtos. by rewrite map_map. Qed.

Lemma sublist_nodup (l k : list N) : l `sublist_of` k -> NoDup k -> NoDup l.
Proof.
  induction 1 as [|x l k S IH|x l k S IH]; intros N.
  - constructor.
  - apply list.NoDup_cons in N as [Hx N]. apply list.NoDup_cons. split; [|auto].
    intros Hin. apply Hx. eapply elem_of_submseteq; [exact Hin|by apply sublist_submseteq].
  - apply list.NoDup_cons in N as [Hx N]. auto.
Qed.


Lemma delegate_batch_effect w u eg pays o :
  Reachable w -> snd (step w (OTx u eg pays (DelegatePending o))) = SOk ->
  let w' := fst (step w (OTx u eg pays (DelegatePending o))) in
  exists l : list (addr * N),
    w_calls w' = w_calls w ++ map (fun x => KDeleg (fst x) (snd x)) l
    /\ sumN (map snd l) <= default (pending_egld w) o
    /\ pending_egld w' + sumN (map snd l) = pending_egld w
    /\ contract_egld w' + sumN (map snd l) = contract_egld w
    /\ NoDup (map fst l)
    /\ (forall c a, In (c, a) l -> MIN_EGLD <= a /\ In c (w_dl w) /\
        exists p, w_pv w !! c = Some p /\ p_elig p = true /\ (p_cap p = 0 \/ a + p_total p <= p_cap p))
    /\ (N.of_nat (length (w_dl w)) < U32 -> N.of_nat (length l) <= c_maxsel (w_cfg w))
    /\ (forall c, w_pv w' !! c = (fun p => set_p_pst (p_pst p + amount_for c l) p) <$> w_pv w !! c)
    /\ w_pool w' = set_pend (pending_egld w') (w_pool w)
    /\ w_dl w' = List.filter (fun c => negb (existsb (N.eqb c) (map fst l))) (w_dl w) ++ map fst l
    /\ w_ul w' = w_ul w /\ w_res w' = w_res w /\ ledgers_unchanged w w' /\ env_unchanged w w'.
Proof.
  intros Hr Hs. pose proof (cfgok w Hr) as (HM & _). pose proof (lists w Hr) as L.
  did_of w (OTx u eg pays (DelegatePending o)) Hs. exists (batch_list ds).
  assert (HN : NoDup (map d_addr ds)) by (eapply sublist_nodup; [eassumption|apply L]).
  subst c c'. rewrite bl_fst, bl_snd. fold (damts ds). cbn in *.
  unfold pending_egld, contract_egld. cbn. split_and!; try done.
  - f_equal. unfold batch_list. by rewrite map_map.
  - destruct (batch_amount_inv _ _ _ ltac:(eassumption)) as (_ & _ & K). destruct o; cbn; lia.
  - lia.
  - lia.
  - intros c x Hin. unfold batch_list in Hin. apply in_map_iff in Hin as (d & [= <- <-] & Hd).
    match goal with H : Forall (deleg_sel_ok _) _ |- _ => rewrite List.Forall_forall in H; destruct (H d Hd) as (p & Hp & He & Ha & Hc) end.
    split; [done|]. split.
    + match goal with H : map d_addr ds `sublist_of` _ |- _ => apply sublist_addrs in H; rewrite List.Forall_forall in H; specialize (H d Hd) end.
      by apply elem_of_list_In.
    + exists p. split; [done|]. split; [done|]. destruct Hc as [|[Hc _]]; [by left|by right].
  - intros HU. unfold batch_list. rewrite map_length. match goal with H : _ -> _ -> _ <= c_maxsel _ |- _ => apply H; [done|lia] end.
  - intros c. rewrite bl_for. apply add_psts_lookup.
  - rewrite to_back_eq by done. done.
Qed.

Lemma undelegate_batch_effect w u eg pays o :
  Reachable w -> snd (step w (OTx u eg pays (UnDelegatePending o))) = SOk ->
  let w' := fst (step w (OTx u eg pays (UnDelegatePending o))) in
  exists l : list (addr * N),
    w_calls w' = w_calls w ++ map (fun x => KUndel (fst x) (snd x)) l
    /\ sumN (map snd l) <= default (unstake_queue w) o
    /\ unstake_queue w' + sumN (map snd l) = unstake_queue w
    /\ contract_egld w' = contract_egld w
    /\ NoDup (map fst l)
    /\ (forall c a, In (c, a) l -> MIN_EGLD <= a /\ In c (w_ul w) /\
        exists p, w_pv w !! c = Some p /\ a + p_pun p <= p_staked p + p_pst p
        /\ (p_staked p + p_pst p = a + p_pun p \/ a + p_pun p + MIN_EGLD <= p_staked p + p_pst p))
    /\ N.of_nat (length l) <= c_maxsel (w_cfg w)
    /\ (forall c, w_pv w' !! c = (fun p => set_p_pun (p_pun p + amount_for c l) p) <$> w_pv w !! c)
    /\ w_pool w' = set_pfu (unstake_queue w') (w_pool w)
    /\ w_ul w' = List.filter (fun c => negb (existsb (N.eqb c) (map fst l))) (w_ul w) ++ map fst l
    /\ w_dl w' = w_dl w /\ w_res w' = w_res w /\ ledgers_unchanged w w' /\ env_unchanged w w'.
Proof.
  intros Hr Hs. pose proof (lists w Hr) as L.
  did_of w (OTx u eg pays (UnDelegatePending o)) Hs. exists (batch_list ds).
  assert (HN : NoDup (map d_addr ds)) by (eapply sublist_nodup; [eassumption|apply L]).
  subst c c'. rewrite bl_fst, bl_snd. fold (damts ds). cbn in *.
  unfold unstake_queue, contract_egld. cbn. split_and!; try done.
  - f_equal. unfold batch_list. by rewrite map_map.
  - destruct (batch_amount_inv _ _ _ ltac:(eassumption)) as (_ & _ & K). destruct o; cbn; lia.
  - lia.
  - intros c x Hin. unfold batch_list in Hin. apply in_map_iff in Hin as (d & [= <- <-] & Hd).
    match goal with H : Forall (undel_sel_ok _) _ |- _ => rewrite List.Forall_forall in H; destruct (H d Hd) as (p & Hp & Ha & Hc & Hl) end.
    split; [done|]. split.
    + match goal with H : map d_addr ds `sublist_of` _ |- _ => apply sublist_addrs in H; rewrite List.Forall_forall in H; specialize (H d Hd) end.
      by apply elem_of_list_In.
    + exists p. split; [done|]. lia.
  - unfold batch_list. by rewrite map_length.
  - intros c. rewrite bl_for. apply add_puns_lookup.
  - rewrite to_back_eq by done. done.
Qed.

(** * Replies *)
Lemma res_unanswered w i k r : nth_error (w_res w) i = Some (k, r) -> k ∈ unanswered w.
Proof.
  intros H. apply nth_error_In in H. unfold unanswered. apply elem_of_app. right.
  apply elem_of_list_In. apply in_map_iff. by exists (k, r).
Qed.

Lemma fly_issued w k : Reachable w -> k ∈ unanswered w -> needs_ls k = true -> c_lstok (w_cfg w) = TIssued.
Proof.
  intros Hr Hk Hn. destruct (decide (c_lstok (w_cfg w) = TIssued)) as [|N]; [done|].
  destruct (t_idle _ _ _ _ _ (tok w Hr) N) as (_ & _ & F). rewrite list.Forall_forall in F. specialize (F k Hk). congruence.
Qed.

Lemma sumN_elem (f : call -> N) k ks : k ∈ ks -> f k <= sumN (map f ks).
Proof. induction 1; cbn; lia. Qed.

Lemma fly_deleg w c a :
  Reachable w -> KDeleg c a ∈ unanswered w -> exists p, w_pv w !! c = Some p /\ c ∈ w_dl w /\ a <= p_pst p.
Proof.
  intros Hr Hk. pose proof (lists w Hr) as L. pose proof (l_fly _ _ _ _ L) as F. rewrite list.Forall_forall in F.
  pose proof (F _ Hk) as Hc. cbn in Hc. destruct (l_rec _ _ _ _ L c Hc) as [p Hp]. exists p. split_and!; [done..|].
  destruct (in_flight_le w c p Hr Hp) as [H _]. pose proof (sumN_elem (deleg_amt c) _ _ Hk) as H1.
  unfold deleg_amt at 1 in H1. rewrite N.eqb_refl in H1. unfold deleg_in_flight in H. lia.
Qed.

Lemma fly_undel w c a :
  Reachable w -> KUndel c a ∈ unanswered w -> exists p, w_pv w !! c = Some p /\ c ∈ w_dl w /\ a <= p_pun p.
Proof.
  intros Hr Hk. pose proof (lists w Hr) as L. pose proof (l_fly _ _ _ _ L) as F. rewrite list.Forall_forall in F.
  pose proof (F _ Hk) as Hc. cbn in Hc. destruct (l_rec _ _ _ _ L c Hc) as [p Hp]. exists p. split_and!; [done..|].
  destruct (in_flight_le w c p Hr Hp) as [_ H]. pose proof (sumN_elem (undel_amt c) _ _ Hk) as H1.
  unfold undel_amt at 1 in H1. rewrite N.eqb_refl in H1. unfold undel_in_flight in H. lia.
Qed.

Lemma sub_ok a b : b <= a -> sub a b = Ok (a - b).
Proof. intros H. unfold sub. destruct (b <=? a) eqn:B; [done|lia]. Qed.

Ltac cb_step Hn :=
  match type of Hn with nth_error (w_res ?w) ?i = _ =>
    unfold step; replace (nth_error (w_res (set_log [] w)) i) with (nth_error (w_res w) i) by reflexivity; rewrite Hn end.

Lemma cb_deleg_failed w i c a :
  Reachable w -> nth_error (w_res w) i = Some (KDeleg c a, RFail) ->
  let w' := fst (step w (OCb i)) in
  snd (step w (OCb i)) = SOk /\
  exists p, w_pv w !! c = Some p /\ a <= p_pst p
  /\ w_pv w' = <[c := Prov (p_admin p) (p_total p) (p_cap p) (p_nodes p) (p_apy p) (p_staked p) (p_unstaked p)
                       false (p_pst p - a) (p_pun p)]> (w_pv w)
  /\ w_pool w' = set_pend (pending_egld w + a) (w_pool w)
  /\ contract_egld w' = contract_egld w + a
  /\ w_dl w' = w_dl w /\ w_ul w' = w_ul w /\ w_calls w' = w_calls w /\ w_res w' = drop_nth i (w_res w)
  /\ ledgers_unchanged w w' /\ env_unchanged w w'.
Proof.
  intros Hr Hn. pose proof (res_unanswered _ _ _ _ Hn) as Hk. pose proof (fly_issued _ _ Hr Hk eq_refl) as HI.
  destruct (fly_deleg _ _ _ Hr Hk) as (p & Hp & _ & Ha).
  cb_step Hn. cbn [callback attached is_done]. unfold add_liquidity_callback, cache_new, ls_token_id, upd_prov, get_prov. cbn.
  rewrite HI. cbn. rewrite Hp. cbn. rewrite (sub_ok _ _ Ha). cbn. split; [done|]. exists p. split_and!; done.
Qed.

Lemma cb_deleg_ok w i c a v :
  Reachable w -> nth_error (w_res w) i = Some (KDeleg c a, RDone v) ->
  let w' := fst (step w (OCb i)) in
  snd (step w (OCb i)) = SOk /\
  exists p, w_pv w !! c = Some p /\ a <= p_pst p
  /\ w_pv w' = <[c := Prov (p_admin p) (p_total p) (p_cap p) (p_nodes p) (p_apy p) (p_staked p + a) (p_unstaked p)
                       (p_elig p) (p_pst p - a) (p_pun p)]> (w_pv w)
  /\ w_pool w' = w_pool w /\ contract_egld w' = contract_egld w
  /\ w_dl w' = w_dl w /\ w_ul w' = w_ul w /\ w_calls w' = w_calls w /\ w_res w' = drop_nth i (w_res w)
  /\ ledgers_unchanged w w' /\ env_unchanged w w'.
Proof.
  intros Hr Hn. pose proof (res_unanswered _ _ _ _ Hn) as Hk. pose proof (fly_issued _ _ Hr Hk eq_refl) as HI.
  destruct (fly_deleg _ _ _ Hr Hk) as (p & Hp & _ & Ha).
  cb_step Hn. cbn [callback attached is_done]. unfold add_liquidity_callback, cache_new, ls_token_id, upd_prov, get_prov. cbn.
  rewrite HI. cbn. rewrite Hp. cbn. rewrite (sub_ok _ _ Ha). cbn. split; [done|]. exists p. split_and!; try done.
  unfold contract_egld. cbn. lia.
Qed.

Lemma cb_undel_failed w i c a :
  Reachable w -> nth_error (w_res w) i = Some (KUndel c a, RFail) ->
  let w' := fst (step w (OCb i)) in
  snd (step w (OCb i)) = SOk /\
  exists p, w_pv w !! c = Some p /\ a <= p_pun p
  /\ w_pv w' = <[c := Prov (p_admin p) (p_total p) (p_cap p) (p_nodes p) (p_apy p) (p_staked p) (p_unstaked p)
                       (p_elig p) (p_pst p) (p_pun p - a)]> (w_pv w)
  /\ w_pool w' = set_pfu (unstake_queue w + a) (w_pool w)
  /\ contract_egld w' = contract_egld w
  /\ w_dl w' = w_dl w /\ w_ul w' = w_ul w /\ w_calls w' = w_calls w /\ w_res w' = drop_nth i (w_res w)
  /\ ledgers_unchanged w w' /\ env_unchanged w w'.
Proof.
  intros Hr Hn. pose proof (res_unanswered _ _ _ _ Hn) as Hk. pose proof (fly_issued _ _ Hr Hk eq_refl) as HI.
  destruct (fly_undel _ _ _ Hr Hk) as (p & Hp & _ & Ha).
  cb_step Hn. cbn [callback attached is_done]. unfold remove_liquidity_callback, cache_new, ls_token_id, upd_prov, get_prov. cbn.
  rewrite HI. cbn. rewrite Hp. cbn. rewrite (sub_ok _ _ Ha). cbn. split; [done|]. exists p. split_and!; try done.
  unfold contract_egld. cbn. lia.
Qed.

Lemma cb_undel_ok w i c a v :
  Reachable w -> nth_error (w_res w) i = Some (KUndel c a, RDone v) ->
  let w' := fst (step w (OCb i)) in
  exists p, w_pv w !! c = Some p /\ a <= p_pun p
  /\ (snd (step w (OCb i)) = SOk <-> a <= p_staked p)
  /\ (a <= p_staked p ->
      w_pv w' = <[c := Prov (p_admin p) (p_total p) (p_cap p) (p_nodes p) (p_apy p) (p_staked p - a) (p_unstaked p + a)
                       (p_elig p) (p_pst p) (p_pun p - a)]> (w_pv w)
      /\ w_pool w' = set_pfb (unbonding w + a) (w_pool w)
      /\ contract_egld w' = contract_egld w
      /\ w_dl w' = w_dl w /\ w_ul w' = w_ul w /\ w_calls w' = w_calls w /\ w_res w' = drop_nth i (w_res w)
      /\ ledgers_unchanged w w' /\ env_unchanged w w').
Proof.
  intros Hr Hn. pose proof (res_unanswered _ _ _ _ Hn) as Hk. pose proof (fly_issued _ _ Hr Hk eq_refl) as HI.
  destruct (fly_undel _ _ _ Hr Hk) as (p & Hp & _ & Ha). exists p. split; [done|]. split; [done|].
  cb_step Hn. cbn [callback attached is_done]. unfold remove_liquidity_callback, cache_new, ls_token_id, upd_prov, get_prov. cbn.
  rewrite HI. cbn. rewrite Hp. cbn. destruct (N.le_gt_cases a (p_staked p)) as [Hs|Hs].
  - rewrite (sub_ok _ _ Hs). cbn. rewrite (sub_ok _ _ Ha). cbn. split; [done|]. intros _. split_and!; try done.
    unfold contract_egld. cbn. lia.
  - unfold sub at 1 3. destruct (a <=? p_staked p) eqn:B; [lia|]. cbn. split; [split; [done|lia]|lia].
Qed.

Lemma cb_withd_empty w i c r :
  nth_error (w_res w) i = Some (KWithd c, r) -> r = RFail \/ r = RDone 0 ->
  step w (OCb i) = (set_egld (w_egld w + 0) (set_res (drop_nth i (w_res w)) (set_log [] w)), SOk).
Proof. intros Hn [->| ->]; cb_step Hn; cbn; done. Qed.

Lemma cb_withd w i c r :
  nth_error (w_res w) i = Some (KWithd c, r) -> snd (step w (OCb i)) = SOk ->
  let w' := fst (step w (OCb i)) in
  let v := match r with RDone v => v | RFail => 0 end in
  contract_egld w' = contract_egld w + v
  /\ total_withdrawn w' = total_withdrawn w + v /\ unbonding w' + v = unbonding w
  /\ w_pool w' = set_pfb (unbonding w') (set_withdrawn (total_withdrawn w') (w_pool w))
  /\ (v = 0 -> w_pv w' = w_pv w)
  /\ (0 < v -> exists p, w_pv w !! c = Some p /\ v <= p_unstaked p
      /\ w_pv w' = <[c := set_p_unstaked (p_unstaked p - v) p]> (w_pv w))
  /\ w_dl w' = w_dl w /\ w_ul w' = w_ul w /\ w_calls w' = w_calls w /\ w_res w' = drop_nth i (w_res w)
  /\ ledgers_unchanged w w' /\ env_unchanged w w'.
Proof.
  intros Hn. cb_step Hn. cbn [callback attached is_done].
  set (v := match r with RDone v => v | RFail => 0 end).
  replace (match r with RFail => 0 | RDone v0 => v0 end) with v by (by destruct r).
  destruct (withdraw_tokens_callback c v (set_egld (w_egld (set_log [] w) + v) (set_res (drop_nth i (w_res (set_log [] w))) (set_log [] w)))) as [w2|] eqn:E; [|done].
  intros _. cbn [fst]. unfold contract_egld, total_withdrawn, unbonding.
  apply withdraw_cb_inv in E as [[Hv ->]|(Hv & _ & p & Hp & Hu & Hb & ->)].
  - rewrite Hv. cbn. split_and!; try done; try lia. by destruct (w_pool w).
  - cbn in *. split_and!; try done; try lia. intros _. exists p. done.
Qed.

Lemma cb_claim w i l v :
  nth_error (w_res w) i = Some (KClaim l, RDone v) -> snd (step w (OCb i)) = SOk ->
  let w' := fst (step w (OCb i)) in
  let fee := v * c_fees (w_cfg w) / 10000 in
  fee <= v
  /\ fees_reserve w' = fees_reserve w + fee
  /\ pending_egld w' = pending_egld w + (v - fee) /\ virtual_reserve w' = virtual_reserve w + (v - fee)
  /\ contract_egld w' = contract_egld w + v
  /\ ls_supply w' = ls_supply w /\ unstake_queue w' = unstake_queue w /\ unbonding w' = unbonding w
  /\ total_withdrawn w' = total_withdrawn w
  /\ w_pv w' = w_pv w /\ w_dl w' = w_dl w /\ w_ul w' = w_ul w /\ w_calls w' = w_calls w
  /\ w_res w' = drop_nth i (w_res w) /\ ledgers_unchanged w w' /\ env_unchanged w w'.
Proof.
  intros Hn. cb_step Hn. cbn [callback attached is_done].
  destruct (claim_rewards_callback (RDone v) (set_egld (w_egld (set_log [] w) + v) (set_res (drop_nth i (w_res (set_log [] w))) (set_log [] w)))) as [w2|] eqn:E; [|done].
  intros _. cbn [fst]. apply claim_cb_inv in E as [[[Hv|Hv] ->]|(t & [= <-] & H0 & HI & Hf & ->)]; [done| |].
  - injection Hv as ->. unfold fees_reserve, pending_egld, virtual_reserve, contract_egld, unstake_queue, unbonding, total_withdrawn, ls_supply. cbn.
    split_and!; try done; lia.
  - unfold fees_reserve, pending_egld, virtual_reserve, contract_egld, unstake_queue, unbonding, total_withdrawn, ls_supply. cbn in *.
    split_and!; done.
Qed.

Lemma cb_claim_none w i l :
  nth_error (w_res w) i = Some (KClaim l, RFail) ->
  step w (OCb i) = (set_egld (w_egld w + 0) (set_res (drop_nth i (w_res w)) (set_log [] w)), SOk).
Proof. intros Hn. cb_step Hn. cbn. done. Qed.

Lemma share_le v f : f <= 10000 -> v * f / 10000 <= v.
Proof. intros H. apply N.div_le_upper_bound; [done|]. nia. Qed.

Lemma cb_claim_available w i l r :
  Reachable w -> nth_error (w_res w) i = Some (KClaim l, r) -> c_fees (w_cfg w) <= 10000 ->
  snd (step w (OCb i)) = SOk.
Proof.
  intros Hr Hn Hf. pose proof (res_unanswered _ _ _ _ Hn) as Hk. pose proof (fly_issued _ _ Hr Hk eq_refl) as HI.
  cb_step Hn. cbn [callback attached is_done]. destruct r as [|v]; [done|]. unfold claim_rewards_callback.
  destruct (0 <? v) eqn:B; [|done]. unfold cache_new, ls_token_id. cbn. rewrite HI. cbn.
  unfold calculate_share. rewrite sub_ok; [done|]. by apply share_le.
Qed.

(** * Whitelisting *)
Definition who_ok (k : call) : Prop := match k with KWhite _ a u => u <> SELF /\ MIN_EGLD <= a | KIssue _ u _ => u <> SELF | _ => True end.

Lemma who_did w o w' s : Forall who_ok (unanswered w) -> did w o w' s -> Forall who_ok (unanswered w').
Proof.
  intros F D.
  assert (Hnew : forall ks, Forall who_ok ks -> Forall who_ok ((w_calls w ++ ks) ++ map fst (w_res w))).
  { intros ks H. rewrite unans_new. apply Forall_app. done. }
  assert (Hcb : forall i k r, nth_error (w_res w) i = Some (k, r) ->
    Forall who_ok (w_calls w ++ map fst (drop_nth i (w_res w)))).
  { intros i k r H. rewrite (unans_cb _ _ _ _ H) in F. by apply Forall_inv_tail in F. }
  destruct D; subst_pools; try exact F; try (unfold unanswered; cbn; by eapply Hcb);
    try (unfold unanswered; cbn; apply Hnew; repeat constructor; done).
  - um_clean. exact F.
  - unfold unanswered; cbn; apply Hnew. clear. induction ds; constructor; auto. done.
  - unfold unanswered; cbn; apply Hnew. clear. induction ds; constructor; auto. done.
  - match goal with H : exec_call _ _ _ = _ |- _ => apply exec_call_frame in H as [l ->] end.
    unfold unanswered; cbn. rewrite unans_exec by eassumption. exact F.
Qed.

Lemma who w : Reachable w -> Forall who_ok (unanswered w).
Proof.
  apply (reach_ind (fun w => Forall who_ok (unanswered w))).
  - intros owner acc fees rpe minr maxsel maxaddr unbond epoch v H. unfold deploy in H. rstep H. constructor.
  - intros v H. exact H.
  - intros v o v' s _. apply who_did.
Qed.

Lemma white_tx w u eg pays c admin total cap nodes apy :
  let o := OTx u eg pays (Whitelist c admin total cap nodes apy) in
  snd (step w o) = SOk ->
  let w' := fst (step w o) in
  w_pv w !! c = None /\ MIN_EGLD <= eg /\ (total <= cap \/ cap = 0)
  /\ w_pv w' = <[c := Prov admin total cap nodes apy 0 0 true 0 0]> (w_pv w)
  /\ w_calls w' = w_calls w ++ [KWhite c eg u]
  /\ w_pool w' = w_pool w /\ contract_egld w' = contract_egld w
  /\ w_dl w' = w_dl w /\ w_ul w' = w_ul w /\ w_res w' = w_res w
  /\ ledgers_unchanged w w' /\ env_unchanged w w'.
Proof.
  intros o Hs. subst o. did_of w (OTx u eg pays (Whitelist c admin total cap nodes apy)) Hs. cbn in *. split_and!; done.
Qed.

Lemma cb_white_failed w i c a u :
  c_lstok (w_cfg w) = TIssued -> nth_error (w_res w) i = Some (KWhite c a u, RFail) ->
  let w' := fst (step w (OCb i)) in
  snd (step w (OCb i)) = SOk
  /\ w_pv w' = delete c (w_pv w) /\ (forall v, egld_sent v w' = if u =? v then a else 0)
  /\ w_pool w' = w_pool w /\ contract_egld w' = contract_egld w
  /\ w_dl w' = w_dl w /\ w_ul w' = w_ul w /\ w_calls w' = w_calls w /\ w_res w' = drop_nth i (w_res w)
  /\ ledgers_unchanged w w' /\ env_unchanged w w'.
Proof.
  intros HI Hn. cb_step Hn. cbn [callback attached is_done]. unfold whitelist_callback, cache_new, ls_token_id. cbn.
  rewrite HI. cbn. unfold send_egld, take_egld. cbn. destruct (a <=? w_egld w + a) eqn:B; [|lia]. cbn.
  split_and!; try done.
  - intros v. unfold egld_sent. cbn. destruct (u =? v); lia.
  - unfold contract_egld. cbn. lia.
Qed.

Lemma cb_white_ok w i c a u v m :
  Reachable w -> nth_error (w_res w) i = Some (KWhite c a u, RDone v) -> view_egld_value a w = Ok m ->
  let w' := fst (step w (OCb i)) in
  snd (step w (OCb i)) = SOk
  /\ c ∉ w_dl w /\ w_dl w' = w_dl w ++ [c] /\ w_ul w' = w_ul w ++ [c]
  /\ (exists p, w_pv w !! c = Some p /\ p_staked p = 0 /\ w_pv w' = <[c := set_p_staked a p]> (w_pv w))
  /\ ls_supply w' = ls_supply w + m /\ virtual_reserve w' = virtual_reserve w + a
  /\ (forall x, ls_balance x w' = ls_balance x w + (if x =? u then m else 0))
  /\ pending_egld w' = pending_egld w /\ unstake_queue w' = unstake_queue w /\ unbonding w' = unbonding w
  /\ total_withdrawn w' = total_withdrawn w /\ fees_reserve w' = fees_reserve w
  /\ contract_egld w' = contract_egld w
  /\ w_calls w' = w_calls w /\ w_res w' = drop_nth i (w_res w)
  /\ ust_unchanged w w' /\ env_unchanged w w'.
Proof.
  intros Hr Hn Hm. pose proof (res_unanswered _ _ _ _ Hn) as Hk. destruct (view_egld_value_inv _ _ _ Hm) as (HI & H0 & ->).
  pose proof (lists w Hr) as L. pose proof (l_fly _ _ _ _ L) as F. rewrite list.Forall_forall in F.
  destruct (F _ Hk) as [Hc (p & Hp & Hfresh & _)].
  pose proof (who w Hr) as W. rewrite list.Forall_forall in W. destruct (W _ Hk) as [Hu _].
  assert (Hc' : c ∉ w_ul w) by (intros K; apply Hc, (l_same _ _ _ _ L); done).
  assert (Hs : snd (step w (OCb i)) = SOk).
  { cb_step Hn. cbn [callback attached is_done]. unfold whitelist_callback, cache_new, ls_token_id, upd_prov, get_prov. cbn.
    rewrite HI. cbn. rewrite Hp. cbn. unfold pool_add_liquidity. rewrite get_ls_amount_ok by done. cbn.
    match goal with |- context [send_ls u ?m (emit ?e (mint_ls ?m ?x))] =>
      change (emit e (mint_ls m x)) with (mint_ls m (emit e x)) end.
    rewrite mint_send_ls_ok. done. }
  split; [exact Hs|]. did_of w (OCb i) Hs;
    match goal with K : nth_error (w_res (set_log [] w)) i = Some _ |- _ =>
      change (nth_error (w_res w) i) with (nth_error (w_res w) i) in K; cbn in K; rewrite Hn in K; try discriminate K;
      injection K as <- <- <- <- end.
  - match goal with K : w_pv (set_log [] w) !! _ = Some _ |- _ => cbn in K; rewrite Hp in K; injection K as <- end.
    assert (Hins : forall l, c ∉ l -> set_insert c l = l ++ [c]).
    { intros l Hl. unfold set_insert. destruct (existsb (N.eqb c) l) eqn:E; [|done]. by apply existsb_in in E. }
    split_and!; try done.
    + cbn. by apply Hins.
    + cbn. by apply Hins.
    + exists p. cbn. rewrite Hfresh. split_and!; done.
    + intros x. unfold ls_balance. cbn. by apply ls_paid_balance.
  - discriminate.
Qed.

(** How one action can change the two lists. *)
Lemma to_back_moved ds l :
  NoDup l -> map d_addr ds `sublist_of` l ->
  exists s, NoDup s /\ (forall c, c ∈ s -> c ∈ l)
    /\ to_back ds l = List.filter (fun c => negb (existsb (N.eqb c) s)) l ++ s.
Proof.
  intros Hn Hs. exists (map d_addr ds). assert (NoDup (map d_addr ds)) by (by eapply sublist_nodup).
  split_and!; [done| |by apply to_back_eq].
  intros c Hc. eapply elem_of_submseteq; [exact Hc|by apply sublist_submseteq].
Qed.

Lemma lists_change w o :
  Reachable w -> let w' := fst (step w o) in
  (w_dl w' = w_dl w /\ w_ul w' = w_ul w)
  \/ (exists s, NoDup s /\ (forall c, c ∈ s -> c ∈ w_dl w) /\ w_ul w' = w_ul w
       /\ w_dl w' = List.filter (fun c => negb (existsb (N.eqb c) s)) (w_dl w) ++ s)
  \/ (exists s, NoDup s /\ (forall c, c ∈ s -> c ∈ w_ul w) /\ w_dl w' = w_dl w
       /\ w_ul w' = List.filter (fun c => negb (existsb (N.eqb c) s)) (w_ul w) ++ s)
  \/ (exists c, c ∉ w_dl w /\ c ∉ w_ul w /\ w_dl w' = w_dl w ++ [c] /\ w_ul w' = w_ul w ++ [c]).
Proof.
  intros Hr. pose proof (step_did w o) as D. cbv zeta. revert D. generalize (fst (step w o)) (snd (step w o)). intros w' s D.
  pose proof (lists w Hr) as L. assert (Hlog : Lists (set_log [] w)) by exact L.
  change (w_dl w) with (w_dl (set_log [] w)) in *. change (w_ul w) with (w_ul (set_log [] w)) in *.
  assert (Hfly : forall k, k ∈ unanswered w -> fly_ok (w_dl w) (w_pv w) k).
  { pose proof (l_fly _ _ _ _ L) as F. by rewrite list.Forall_forall in F. }
  assert (Hres : w_res (set_log [] w) = w_res w) by done. destruct D; try (left; split; reflexivity).
  - um_clean. left. split; reflexivity.
  - right. left. destruct (to_back_moved ds (w_dl w)) as (sv & H1' & H2' & H3'); [apply L|assumption|].
    exists sv. split_and!; try done.
  - right. right. left. destruct (to_back_moved ds (w_ul w)) as (sv & H1' & H2' & H3'); [apply L|assumption|].
    exists sv. split_and!; try done.
  - match goal with H : exec_call _ _ _ = _ |- _ => apply exec_call_frame in H as [l ->] end. left. split; reflexivity.
  - right. right. right. exists c.
    assert (Hc : c ∉ w_dl w) by (eapply (Hfly (KWhite c a caller)), res_unanswered; eassumption).
    assert (Hc' : c ∉ w_ul w) by (intros K; apply Hc, (l_same _ _ _ _ L); done).
    assert (Hins : forall l, c ∉ l -> set_insert c l = l ++ [c]).
    { intros l Hl. unfold set_insert. destruct (existsb (N.eqb c) l) eqn:E; [|done]. by apply existsb_in in E. }
    split_and!; [done..| |]; cbn; by apply Hins.
Qed.

Lemma filtered_in (s l : list N) c : c ∈ l -> c ∈ List.filter (fun c => negb (existsb (N.eqb c) s)) l ++ s.
Proof.
  intros H. apply elem_of_app. destruct (existsb (N.eqb c) s) eqn:E.
  - right. by apply existsb_in.
  - left. apply elem_of_list_In, filter_In. rewrite E. split; [by apply elem_of_list_In|done].
Qed.

Lemma listed_stays w os c : Reachable w -> c ∈ w_dl w -> c ∈ w_dl (run w os) /\ c ∈ w_ul (run w os).
Proof.
  revert w. induction os as [|o os IH]; intros w Hr Hc; cbn [run].
  - split; [done|]. by apply (l_same _ _ _ _ (lists w Hr)).
  - apply IH; [by apply reach_step|]. destruct (lists_change w o Hr) as [[-> _]|[(s & _ & _ & _ & ->)|[(s & _ & _ & -> & _)|(x & _ & _ & -> & _)]]];
      [done|by apply filtered_in|done|apply elem_of_app; by left].
Qed.

(** * The LS token gates every money endpoint *)
Lemma gated w u eg pays ep :
  snd (step w (OTx u eg pays ep)) = SOk -> needs_ls_token ep = true -> c_lstok (w_cfg w) = TIssued.
Proof.
  intros Hs Hn. did_of w (OTx u eg pays ep) Hs; try discriminate Hn; try assumption.
  exfalso. destruct ep; try discriminate Hn; match goal with H : False |- _ => destruct H end.
Qed.

(** No second issue is under way or can be started once a token is issued. *)
Lemma sumN_zero_elem (f : call -> N) k ks : k ∈ ks -> sumN (map f ks) = 0 -> f k = 0.
Proof. intros Hk H. pose proof (sumN_elem f k ks Hk). lia. Qed.

Lemma issued_once w (ls : bool) :
  Reachable w -> (if ls then c_lstok (w_cfg w) else c_usttok (w_cfg w)) = TIssued ->
  (forall who a, ~ In (KIssue ls who a) (unanswered w))
  /\ (forall u eg pays, snd (step w (OTx u eg pays (if ls then RegisterLsToken else RegisterUnstakeToken))) <> SOk).
Proof.
  intros Hr HI. pose proof (tok w Hr) as T. split.
  - intros x a Hin%elem_of_list_In. destruct ls.
    + pose proof (t_ls _ _ _ _ _ T) as K. rewrite HI, decide_False in K by done. apply N.le_0_r in K. pose proof (sumN_zero_elem _ _ _ Hin K). done.
    + pose proof (t_ust _ _ _ _ _ T) as K. rewrite HI, decide_False in K by done. apply N.le_0_r in K. pose proof (sumN_zero_elem _ _ _ Hin K). done.
  - intros u eg pays Hs. destruct ls.
    + did_of w (OTx u eg pays RegisterLsToken) Hs; cbn in *; congruence.
    + did_of w (OTx u eg pays RegisterUnstakeToken) Hs; cbn in *; congruence.
Qed.

Lemma list_views w :
  Reachable w ->
  NoDup (w_dl w) /\ NoDup (w_ul w) /\ (forall c, c ∈ w_dl w <-> c ∈ w_ul w)
  /\ (forall c, c ∈ w_dl w -> is_Some (w_pv w !! c)).
Proof. intros Hr. destruct (lists w Hr). done. Qed.
