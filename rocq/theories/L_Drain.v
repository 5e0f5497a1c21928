(** L_Drain.v — the un-delegation queue is emptied without deposits. *)
From Verif Require Import L_Order L_Exit L_Batch L_Find L_Find2 L_Net.
From Verif Require Export Spec10 L_Settle.

Definition undel_call (x : call) : Prop := match x with KUndel _ _ => True | _ => False end.
Definition undel_done (x : call * reply) : Prop := match x with (KUndel _ _, RDone _) => True | _ => False end.

(** The providers accept. *)
Lemma exec_undels cs w :
  w_calls w = cs -> NoDup (map provider_of cs) ->
  Forall (fun k => exists c a, k = KUndel c a /\ a <= fst (live_of w c)) cs ->
  let ops := repeat (OExec 0 (Some 0)) (length cs) in
  Forall (eq SOk) (statuses w ops) /\ w_calls (run w ops) = [] /\ w_res (run w ops) = w_res w ++ map (fun k => (k, RDone 0)) cs.
Proof.
  revert w. induction cs as [|k cs IH]; intros w Hc Hn HF; cbv zeta.
  - cbn. rewrite app_nil_r. split_and!; [constructor|done|done].
  - apply list.NoDup_cons in Hn as [Hn1 Hn2]. apply Forall_cons_1 in HF as [(c & a & -> & Ha) HF].
    assert (S1 : step w (OExec 0 (Some 0))
      = (set_res (w_res w ++ [(KUndel c a, RDone 0)]) (set_calls cs
          (set_live (<[c := (fst (live_of w c) - a, snd (live_of w c) + a)]> (w_live w)) (set_log [] w))), SOk)).
    { unfold step. cbn [w_calls set_log]. rewrite Hc. cbn [nth_error exec_call].
      change (live_of (set_log [] w) c) with (live_of w c). destruct (live_of w c) as [x y]. cbn [fst snd] in *.
      replace (a <=? x) with true by lia. cbn. by rewrite Hc. }
    cbn [length repeat statuses run]. rewrite S1. cbn [fst snd].
    match goal with |- context [statuses ?v _] => set (w1 := v) end.
    destruct (IH w1) as (A & B & C); [done|done| |].
    { apply List.Forall_forall. intros k Hk. rewrite List.Forall_forall in HF. destruct (HF k Hk) as (d & b & -> & Hb).
      exists d, b. split; [done|]. unfold live_of, w1. cbn. rewrite lookup_insert_ne; [exact Hb|]. intros <-.
      apply Hn1. apply elem_of_list_In. change (provider_of (KUndel c a)) with (provider_of (KUndel c b)).
      by apply in_map. }
    split_and!; [by constructor|done|]. rewrite C. unfold w1. cbn. by rewrite <- app_assoc.
Qed.

(** The replies arrive. *)
Lemma deliver_undels n w :
  Reachable w -> InStep w -> length (w_res w) = n -> Forall undel_done (w_res w) ->
  let ops := repeat (OCb 0) n in
  Forall (eq SOk) (statuses w ops) /\ along orderly w ops /\ w_res (run w ops) = [] /\ w_calls (run w ops) = w_calls w
  /\ unstake_queue (run w ops) = unstake_queue w /\ w_ul (run w ops) = w_ul w.
Proof.
  revert w. induction n as [|n IH]; intros w Hr HI Hl Hq; cbv zeta.
  - destruct (w_res w) eqn:E; [|done]. cbn. split_and!; [constructor|done..].
  - destruct (w_res w) as [|[k r] l] eqn:E; [done|]. inversion Hq as [|? ? Hq1 Hq2]; subst.
    destruct k as [|c a| | | |]; try contradiction Hq1. destruct r as [|v]; [contradiction Hq1|].
    assert (Ho : orderly w (OCb 0)).
    { cbn. rewrite E. split; [intros j ? ? Hj; lia|done]. }
    destruct (orderly_step w (OCb 0) Hr HI Ho) as [K1 K2].
    destruct (deliver_first w _ _ l E K1) as [K3 K4].
    assert (Hm : forall p, p <> Replies -> reply_changes (KUndel c a) (RDone v) p = false -> same p w (fst (step w (OCb 0)))).
    { intros p Hp Hx. apply frame_step. cbn. rewrite E. cbn. by destruct p. }
    pose proof (Hm Calls ltac:(done) ltac:(done)) as F1. pose proof (Hm UnstakeQueue ltac:(done) ltac:(done)) as F2.
    pose proof (Hm UnstakeList ltac:(done) ltac:(done)) as F3. cbn [same] in F1, F2, F3.
    destruct (IH (fst (step w (OCb 0)))) as (A & B & C & D & G & H).
    + by apply reach_step.
    + done.
    + rewrite K4. cbn in Hl. lia.
    + by rewrite K4.
    + cbn [repeat statuses along run]. split_and!; [by constructor|done|done|done|congruence..].
Qed.

(** What these actions leave alone. *)
Definition still (p : part) : Prop :=
  match p with
  | SManagers | SActive | Owner | Epoch | TokenBook | UstOf _ _ | SPeriod | SScoring | SMaxSelected | SFees => True
  | _ => False
  end.

Lemma drains_still m p w os : still p -> Forall (drains m) os -> same p w (run w os).
Proof.
  intros Hp HF. apply frame_along. revert w. induction HF as [|o os Ho _ IH]; intros w; [done|]. cbn [along]. split; [|apply IH].
  destruct o as [u eg pays ep|i out|i| | | | | | |]; try contradiction Ho.
  - destruct eg; [|contradiction Ho]. destruct pays; [|contradiction Ho]. destruct ep; try contradiction Ho. by destruct p.
  - by destruct p.
  - cbn. destruct (nth_error (w_res w) i) as [[k r]|]; [|done].
    by destruct p; try contradiction; destruct k as [| | | | |[]], r.
Qed.

Lemma drains_ust m w os : Forall (drains m) os -> w_ust (run w os) = w_ust w.
Proof.
  intros HF. revert w. induction HF as [|o os Ho _ IH]; intros w; [done|]. cbn [run]. rewrite IH. clear IH.
  pose proof (step_did w o) as D. remember (fst (step w o)) as w' eqn:E1. remember (snd (step w o)) as s eqn:E2. clear E1 E2.
  change (w_ust w) with (w_ust (set_log [] w)). revert D. generalize (set_log [] w). clear w. intros w D.
  destruct D; try contradiction Ho; try reflexivity;
    try (match goal with H : exec_call _ _ _ = _ |- _ => apply exec_call_frame in H as [l ->] end; reflexivity).
  destruct a; [|contradiction Ho]. destruct pays; contradiction Ho.
Qed.

Lemma drains_net m w os : Forall (drains m) os -> along (fun v o => ~ rejects_delegation v o) w os.
Proof.
  intros HF. revert w. induction HF as [|o os Ho _ IH]; intros w; [done|]. cbn [along]. split; [|apply IH].
  destruct o as [u eg pays ep|i out|i| | | | | | |]; try contradiction Ho; try (cbn; tauto).
  destruct i; [|contradiction Ho]. destruct out; [cbn; tauto|contradiction Ho].
Qed.

Lemma net_holder w c : In c (holders w) -> exists p, In c (w_ul w) /\ w_pv w !! c = Some p /\ 0 < net_stake p.
Proof.
  intros H. apply filter_In in H as [H1 H2]. unfold rec in H2. destruct (w_pv w !! c) as [p|]; [|done].
  exists p. split_and!; [done|done|]. cbn in H2. lia.
Qed.

(** At a quiet point of an orderly history a record shows what the provider holds. *)
Lemma quiet_books w0 os c p :
  Deployed w0 -> along orderly w0 os -> let w := run w0 os in quiet w -> w_pv w !! c = Some p ->
  p_pst p = 0 /\ p_pun p = 0 /\ live_of w c = (p_staked p, p_unstaked p).
Proof.
  intros Hd Ho w Hq Hp. assert (Hc : clean_history w0 os) by (by apply ordered_clean).
  assert (Hrc : ReachableClean w) by (apply clean_run_reach; [by apply deployed_clean|done]).
  destruct (in_flight_clean w c p Hrc Hp) as [E1 E2]. unfold deleg_in_flight, undel_in_flight, unanswered in *.
  pose proof (ordered_books_settled w0 os Hd Ho c) as HB. cbn zeta in HB. fold w in HB.
  destruct Hq as [Hq1 Hq2]. rewrite Hq1, Hq2 in *. specialize (HB ltac:(done)). unfold recorded in HB. rewrite Hp in HB. done.
Qed.

(** The first half of a round: the transaction. *)
Lemma drain_tx w m o :
  Reachable w -> quiet w -> snd (step w (OTx m 0 [] (UnDelegatePending o))) = SOk ->
  let v := fst (step w (OTx m 0 [] (UnDelegatePending o))) in
  length (w_ul v) = length (w_ul w) /\ w_res v = [] /\ w_live v = w_live w /\ NoDup (map provider_of (w_calls v))
  /\ Forall (fun k => exists c a p, k = KUndel c a /\ w_pv w !! c = Some p /\ p_pun p + a <= p_staked p + p_pst p) (w_calls v).
Proof.
  intros Hr [Hq1 Hq2] Hs v. destruct (list_views w Hr) as (_ & Hnd & _).
  subst v. did_of w (OTx m 0 [] (UnDelegatePending o)) Hs.
  match goal with H1 : map d_addr ds `sublist_of` _, H2 : Forall (undel_sel_ok _) ds |- _ => rename H1 into HS; rename H2 into HU end.
  cbn. cbn in Hq1, Hq2. rewrite Hq1, Hq2. cbn [app]. split_and!; try done.
  - apply to_back_length; [exact Hnd|exact HS].
  - rewrite map_map. cbn. rewrite <- (map_map d_addr Some). apply NoDup_fmap_2; [apply _|].
    eapply sublist_nodup; [exact HS|exact Hnd].
  - apply List.Forall_map. eapply List.Forall_impl; [|exact HU]. intros d (p & K1 & _ & K2 & _). by exists (d_addr d), (d_amt d), p.
Qed.

(** One round. *)
Lemma drain_round w0 os m sc :
  Deployed w0 -> along orderly w0 os ->
  let w := run w0 os in
  quiet w -> operator m w ->
  c_score (w_cfg w) = Some sc -> distinct_bounds sc -> N.of_nat (length (w_ul w)) < 2 ^ 32 ->
  c_maxsel (w_cfg w) < 2 ^ 64 -> c_maxsel (w_cfg w) mod 2 ^ 32 <> 0 ->
  (forall c p, w_pv w !! c = Some p -> net_zero_or_one p) ->
  2 * ONE_EGLD <= unstake_queue w -> holders w <> [] ->
  exists ops, Forall (drains m) ops /\ Forall (eq SOk) (statuses w ops) /\ along orderly w ops
    /\ quiet (run w ops) /\ unstake_queue (run w ops) + ONE_EGLD <= unstake_queue w
    /\ length (w_ul (run w ops)) = length (w_ul w).
Proof.
  intros Hd Ho w Hq Hop Hsc Hdb Hlen Hm1 Hm2 Hnet Hqu Hh. pose proof (deployed_reach w0 Hd) as Hr0.
  destruct (orderly_run w0 os Hr0 (instep_deploy w0 Hd) Ho) as [_ HI].
  assert (Hr : Reachable w) by (by apply reach_run_). fold w in HI.
  destruct (holders w) as [|c1 l1] eqn:Eh; [done|].
  destruct (net_holder w c1) as (p1 & Hc1 & Hp1 & Hn1); [rewrite Eh; by left|].
  assert (exists o, fits_queue o (unstake_queue w) /\ (net_stake (rec w c1) <= default (unstake_queue w) o
    \/ default (unstake_queue w) o + ONE_EGLD <= net_stake (rec w c1))) as (o & Hfit & Hch).
  { assert (Hone : ONE_EGLD = 1000000000000000000) by done.
    destruct (N.le_gt_cases (net_stake (rec w c1)) (unstake_queue w)) as [?|G1].
    { exists None. split; [split; [lia|done]|by left]. }
    destruct (N.le_gt_cases (unstake_queue w + ONE_EGLD) (net_stake (rec w c1))) as [?|G2].
    { exists None. split; [split; [lia|done]|by right]. }
    exists (Some (unstake_queue w - ONE_EGLD)). unfold default; cbn [from_option id]. split; [split; [lia|split; [lia|right; lia]]|right; lia]. }
  set (tx := OTx m 0 [] (UnDelegatePending o)).
  assert (Hs : snd (step w tx) = SOk).
  { apply (queue_moves w m o sc); try done.
    - intros c p _. apply Hnet.
    - exists c1, p1. split_and!; [by apply elem_of_list_In|done|done]. }
  pose proof (batch_moves w m 0 [] o c1 l1 Hr Hs Hlen Eh Hch) as Hmv.
  destruct (drain_tx w m o Hr Hq Hs) as (T1 & T2 & T3 & T4 & T5). fold tx in Hmv, T1, T2, T3, T4, T5.
  set (v := fst (step w tx)) in *.
  assert (Hrv : Reachable v) by (by apply reach_step).
  destruct (orderly_step w tx Hr HI I) as [_ HIv]. fold v in HIv.
  destruct (exec_undels (w_calls v) v eq_refl T4) as (A1 & A2 & A3).
  { eapply List.Forall_impl; [|exact T5]. cbn. intros k (c & a & p & -> & Hp & Hle). exists c, a. split; [done|].
    unfold live_of. rewrite T3. fold (live_of w c). destruct (quiet_books w0 os c p Hd Ho Hq Hp) as (E1 & E2 & E3).
    fold w in E3. rewrite E3. cbn. lia. }
  set (n := length (w_calls v)) in *. set (v1 := run v (repeat (OExec 0 (Some 0)) n)) in *.
  assert (Hex : repeat (OExec 0 (Some 0)) n = map (OExec 0) (repeat (Some 0) n)).
  { clear. induction n; [done|]. cbn. by f_equal. }
  destruct (orderly_run v _ Hrv HIv (exec_orderly v (repeat (Some 0) n))) as [_ HI1]. rewrite <- Hex in HI1. fold v1 in HI1.
  assert (Hr1 : Reachable v1) by (by apply reach_run_).
  assert (F : forall p, p = UnstakeQueue \/ p = UnstakeList -> same p v v1).
  { intros p Hp. apply frame_along. rewrite Hex. clearbody v n; clear -Hp. generalize v, (repeat (Some 0) n). clear -Hp. intros v l. revert v.
    induction l as [|x l IH]; intros v; [done|]. cbn [map along]. split; [by destruct Hp as [-> | ->]|apply IH]. }
  pose proof (F UnstakeQueue ltac:(by left)) as F1. pose proof (F UnstakeList ltac:(by right)) as F2. cbn [same] in F1, F2.
  rewrite T2 in A3. cbn [app] in A3.
  destruct (deliver_undels n v1) as (B1 & B2 & B3 & B4 & B5 & B6); [done|done|by rewrite A3, map_length| |].
  { rewrite A3. apply List.Forall_map. eapply List.Forall_impl; [|exact T5]. cbn. intros k (c & a & p & -> & _). done. }
  exists (tx :: repeat (OExec 0 (Some 0)) n ++ repeat (OCb 0) n).
  cbn [statuses run along]. rewrite statuses_app, run_app. fold v v1.
  split_and!.
  - constructor; [done|]. apply list.Forall_app. split; apply List.Forall_forall; intros x Hx; apply repeat_spec in Hx; by subst x.
  - constructor; [by rewrite Hs|]. by apply list.Forall_app.
  - done.
  - apply along_app; [rewrite Hex; apply exec_orderly|done].
  - split; [congruence|done].
  - rewrite B5, F1. exact Hmv.
  - rewrite B6, F2. exact T1.
Qed.

Lemma no_holders_no_stake w0 os :
  Deployed w0 -> along orderly w0 os -> let w := run w0 os in quiet w -> 
  (forall c p, w_pv w !! c = Some p -> net_zero_or_one p) -> holders w = [] -> no_stake_left w.
Proof.
  intros Hd Ho w Hq Hnet Hh c.
  assert (Hr : Reachable w) by (apply reach_run_, deployed_reach, Hd).
  destruct (w_pv w !! c) as [p|] eqn:Hp.
  - destruct (quiet_books w0 os c p Hd Ho Hq Hp) as (E1 & E2 & E3). fold w in E3. rewrite E3. cbn.
    destruct (list_views w Hr) as (_ & _ & Hdu & _).
    destruct (decide (c ∈ w_ul w)) as [Hin|Hin].
    + destruct (N.eq_dec (p_staked p) 0) as [|Hz]; [done|]. exfalso.
      assert (In c (holders w)) as K; [|by rewrite Hh in K]. apply filter_In. split; [by apply elem_of_list_In|].
      unfold rec. rewrite Hp. cbn. unfold net_stake. lia.
    + rewrite <- Hdu in Hin. pose proof (l_unlisted _ _ _ _ (lists w Hr) c p Hp Hin) as Hfr. by apply Hfr.
  - pose proof (ordered_books_settled w0 os Hd Ho c) as HB. cbn zeta in HB. fold w in HB.
    destruct Hq as [_ Hq]. rewrite Hq in HB. specialize (HB ltac:(done)). unfold recorded in HB. rewrite Hp in HB. by rewrite <- HB.
Qed.

Lemma queue_drains w0 os m sc :
  Deployed w0 -> along orderly w0 os ->
  let w := run w0 os in
  quiet w -> operator m w ->
  c_score (w_cfg w) = Some sc -> distinct_bounds sc -> N.of_nat (length (w_ul w)) < 2 ^ 32 ->
  c_maxsel (w_cfg w) < 2 ^ 64 -> c_maxsel (w_cfg w) mod 2 ^ 32 <> 0 ->
  (forall c p, w_pv w !! c = Some p -> net_zero_or_one p) ->
  exists ops, let v := run w ops in
    Forall (drains m) ops /\ Forall (eq SOk) (statuses w ops) /\ along orderly w ops /\ quiet v
    /\ (unstake_queue v < 2 * ONE_EGLD \/ no_stake_left v).
Proof.
  intros Hd Ho w. remember (unstake_queue w) as q eqn:Eq. revert os Ho w Eq.
  induction (N.lt_wf_0 q) as [q _ IH]. intros os Ho w Eq Hq Hop Hsc Hdb Hlen Hm1 Hm2 Hnet.
  destruct (N.lt_ge_cases q (2 * ONE_EGLD)) as [Hlt|Hge].
  { exists []. cbn. split_and!; [constructor|constructor|done|apply Hq..|left; by rewrite <- Eq]. }
  destruct (holders w) as [|c1 l1] eqn:Eh.
  { exists []. cbn. split_and!; [constructor|constructor|done|apply Hq..|right]. by apply (no_holders_no_stake w0 os). }
  destruct (drain_round w0 os m sc Hd Ho Hq Hop Hsc Hdb Hlen Hm1 Hm2 Hnet) as (ops & D1 & D2 & D3 & D4 & D5 & D6).
  { fold w. by rewrite <- Eq. } { fold w. by rewrite Eh. }
  fold w in D2, D3, D4, D5, D6.
  assert (Hr : Reachable w) by (apply reach_run_, deployed_reach, Hd).
  pose proof (drains_still m SScoring w ops I D1) as G1. pose proof (drains_still m SMaxSelected w ops I D1) as G2.
  pose proof (drains_still m SManagers w ops I D1) as G3. pose proof (drains_still m Owner w ops I D1) as G4.
  pose proof (drains_still m SActive w ops I D1) as G5. cbn [same] in G1, G2, G3, G4, G5.
  destruct (tokens_final w ops Hr) as [T1 _].
  destruct (net_run w ops Hr) as [[HN _ _] _].
  { split; [exact Hnet| |]; unfold unanswered; destruct Hq as [Q1 Q2]; rewrite ?Q1, ?Q2; constructor. } { by apply (drains_net m). }
  pose proof (along_app _ w0 os ops Ho D3) as Ho'.
  assert (Hone : ONE_EGLD = 1000000000000000000) by done.
  assert (X : exists ops', let v := run (run w ops) ops' in
    Forall (drains m) ops' /\ Forall (eq SOk) (statuses (run w ops) ops') /\ along orderly (run w ops) ops' /\ quiet v
    /\ (unstake_queue v < 2 * ONE_EGLD \/ no_stake_left v)).
  { pose proof (IH (unstake_queue (run w ops)) ltac:(lia) (os ++ ops) Ho') as Y. rewrite run_app in Y. fold w in Y. cbv zeta in Y.
    apply Y; try done.
    - destruct Hop as (O1 & O2 & O3 & O4). split_and!; [done|by rewrite G3, G4|by apply T1|congruence].
    - congruence.
    - by rewrite D6.
    - by rewrite G2.
    - by rewrite G2.
 }
  destruct X as (ops' & E1 & E2 & E3 & E4 & E5). exists (ops ++ ops'). cbv zeta. rewrite statuses_app, run_app.
  split_and!; [by apply list.Forall_app|by apply list.Forall_app|by apply along_app|apply E4..|exact E5].
Qed.

(** Deciding the condition on the records, for the cases. *)
Definition net_ok_b (p : prov) : bool :=
  (p_staked p + p_pst p =? p_pun p) || (p_pun p + ONE_EGLD <=? p_staked p + p_pst p).
Lemma net_all w :
  forallb (fun x => net_ok_b (snd x)) (map_to_list (w_pv w)) = true -> forall c p, w_pv w !! c = Some p -> net_zero_or_one p.
Proof.
  intros H c p Hp. apply elem_of_map_to_list in Hp. rewrite forallb_forall in H.
  specialize (H (c, p)). apply elem_of_list_In in Hp. specialize (H Hp). unfold net_ok_b in H. cbn in H.
  unfold net_zero_or_one. lia.
Qed.
