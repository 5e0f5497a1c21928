(** L_Turn.v — every provider gets its turn. *)
From Verif Require Export Spec5 L_Select L_Books.

Lemma skipn_same {A} (l : list A) : skipn (length l) l = [].
Proof. apply skipn_all. Qed.
Lemma skipn_added {A} (l x : list A) : skipn (length l) (l ++ x) = x.
Proof. induction l; [done|]. cbn. done. Qed.
Lemma skipn_dropped {A} i (l : list A) : skipn (length l) (drop_nth i l) = [].
Proof.
  apply skipn_all2. revert i. induction l as [|a l IH]; intros [|i].
  - done.
  - done.
  - unfold drop_nth. cbn. lia.
  - specialize (IH i). change (drop_nth (S i) (a :: l)) with (a :: drop_nth i l). cbn. lia.
Qed.

Lemma flat_deleg (b : list (addr * N)) :
  flat_map (fun k => match k with KDeleg c _ => [c] | _ => [] end) (map (fun x => KDeleg (fst x) (snd x)) b) = map fst b.
Proof. induction b as [|[c x] b IH]; [done|]. cbn. by rewrite IH. Qed.
Lemma flat_undel (b : list (addr * N)) :
  flat_map (fun k => match k with KUndel c _ => [c] | _ => [] end) (map (fun x => KUndel (fst x) (snd x)) b) = map fst b.
Proof. induction b as [|[c x] b IH]; [done|]. cbn. by rewrite IH. Qed.
Lemma flat_deleg_not (b : list (addr * N)) :
  flat_map (fun k => match k with KUndel c _ => [c] | _ => [] end) (map (fun x => KDeleg (fst x) (snd x)) b) = [].
Proof. induction b as [|[c x] b IH]; [done|]. cbn. by rewrite IH. Qed.
Lemma flat_undel_not (b : list (addr * N)) :
  flat_map (fun k => match k with KDeleg c _ => [c] | _ => [] end) (map (fun x => KUndel (fst x) (snd x)) b) = [].
Proof. induction b as [|[c x] b IH]; [done|]. cbn. by rewrite IH. Qed.

Lemma kept_all (l : list N) : List.filter (fun c => negb (existsb (N.eqb c) [])) l = l.
Proof. induction l as [|a l IH]; [done|]. cbn in *. by rewrite IH. Qed.

(** the two lists after any action, in terms of who was asked *)
Lemma lists_served w o :
  Reachable w -> let w' := fst (step w o) in
  let sd := asked_to_stake w w' in let su := asked_to_unstake w w' in
  NoDup sd /\ NoDup su /\ (forall c, c ∈ sd -> c ∈ w_dl w) /\ (forall c, c ∈ su -> c ∈ w_ul w)
  /\ exists nw, w_dl w' = (List.filter (fun c => negb (existsb (N.eqb c) sd)) (w_dl w) ++ sd) ++ nw
             /\ w_ul w' = (List.filter (fun c => negb (existsb (N.eqb c) su)) (w_ul w) ++ su) ++ nw.
Proof.
  intros Hr. cbv zeta.
  assert (Q : forall w', asked_to_stake w w' = [] -> asked_to_unstake w w' = [] ->
     (exists nw, w_dl w' = w_dl w ++ nw /\ w_ul w' = w_ul w ++ nw) ->
     NoDup (asked_to_stake w w') /\ NoDup (asked_to_unstake w w') /\ (forall c, c ∈ asked_to_stake w w' -> c ∈ w_dl w)
     /\ (forall c, c ∈ asked_to_unstake w w' -> c ∈ w_ul w)
     /\ exists nw, w_dl w' = (List.filter (fun c => negb (existsb (N.eqb c) (asked_to_stake w w'))) (w_dl w) ++ asked_to_stake w w') ++ nw
             /\ w_ul w' = (List.filter (fun c => negb (existsb (N.eqb c) (asked_to_unstake w w'))) (w_ul w) ++ asked_to_unstake w w') ++ nw).
  { intros w' -> -> (nw & E1 & E2). split; [constructor|]. split; [constructor|].
    split; [intros c K; by apply elem_of_nil in K|]. split; [intros c K; by apply elem_of_nil in K|].
    exists nw. by rewrite !kept_all, !app_nil_r. }
  assert (Hb : (exists u eg pays x, o = OTx u eg pays (DelegatePending x) /\ snd (step w o) = SOk)
    \/ (exists u eg pays x, o = OTx u eg pays (UnDelegatePending x) /\ snd (step w o) = SOk)
    \/ (asked_to_stake w (fst (step w o)) = [] /\ asked_to_unstake w (fst (step w o)) = []
        /\ exists nw, w_dl (fst (step w o)) = w_dl w ++ nw /\ w_ul (fst (step w o)) = w_ul w ++ nw)).
  { pose proof (step_did w o) as D. pose proof (lists w Hr) as L.
    assert (Hfly : forall k, k ∈ unanswered w -> fly_ok (w_dl w) (w_pv w) k).
    { pose proof (l_fly _ _ _ _ L) as F. by rewrite list.Forall_forall in F. }
    revert D. generalize (fst (step w o)) (snd (step w o)). intros w' s D.
    unfold asked_to_stake, asked_to_unstake, registered.
    assert (Hc : w_calls (set_log [] w) = w_calls w) by done. assert (Hd : w_dl (set_log [] w) = w_dl w) by done.
    assert (Hu : w_ul (set_log [] w) = w_ul w) by done. assert (Hres : w_res (set_log [] w) = w_res w) by done.
    assert (Hpv : w_pv (set_log [] w) = w_pv w) by done.
    destruct D;
      try (right; right; cbn; rewrite ?skipn_same, ?skipn_added; split; [reflexivity|]; split; [reflexivity|];
           exists []; rewrite !app_nil_r; split; reflexivity).
    - um_clean. right; right; cbn; rewrite ?skipn_same; split; [reflexivity|]; split; [reflexivity|];
        exists []; rewrite !app_nil_r; split; reflexivity.
    - left. eauto 10.
    - right. left. eauto 10.
    - match goal with H : exec_call _ _ _ = _ |- _ => apply exec_call_frame in H as [l ->] end.
      right; right. cbn. rewrite skipn_dropped. split; [done|]. split; [done|]. exists []. by rewrite !app_nil_r.
    - right; right. cbn. rewrite skipn_same. split; [done|]. split; [done|]. exists [c].
      assert (Hn : c ∉ w_dl w) by (eapply (Hfly (KWhite c a caller)), res_unanswered; eassumption).
      assert (Hn' : c ∉ w_ul w) by (intros K; apply Hn, (l_same _ _ _ _ L); done).
      assert (Hins : forall l, c ∉ l -> set_insert c l = l ++ [c]).
      { intros l Hl. unfold set_insert. destruct (existsb (N.eqb c) l) eqn:E; [|done]. by apply existsb_in in E. }
      split; by apply Hins. }
  destruct Hb as [(u & eg & pays & x & -> & Hs)|[(u & eg & pays & x & -> & Hs)|(H1 & H2 & H3)]]; [| |by apply Q].
  - destruct (delegate_batch_effect w u eg pays x Hr Hs) as (b & Ec & _ & _ & _ & Hn & Hin & _ & _ & _ & Ed & Eu & _).
    unfold asked_to_stake, asked_to_unstake, registered. rewrite Ec, skipn_added, flat_deleg, flat_deleg_not.
    split; [done|]. split; [constructor|]. split.
    { intros c K. apply elem_of_list_In, in_map_iff in K as ([d y] & <- & K). apply Hin in K as (_ & K & _). by apply elem_of_list_In. }
    split; [intros c K; by apply elem_of_nil in K|]. exists []. rewrite kept_all, !app_nil_r. done.
  - destruct (undelegate_batch_effect w u eg pays x Hr Hs) as (b & Ec & H).
    unfold asked_to_stake, asked_to_unstake, registered. rewrite Ec, skipn_added, flat_undel, flat_undel_not.
    decompose [and] H. split; [constructor|]. split; [done|]. split; [intros c K; by apply elem_of_nil in K|].
    split.
    { intros c K. apply elem_of_list_In, in_map_iff in K as ([d y] & <- & K).
      match goal with Q : forall c a, In (c, a) b -> _ |- _ => apply Q in K as (_ & K & _) end. by apply elem_of_list_In. }
    exists []. rewrite kept_all, !app_nil_r. done.
Qed.

(** * Positions *)
Lemma ahead_prefix c p q : c ∉ p -> ahead c (p ++ c :: q) = N.of_nat (length p).
Proof.
  induction p as [|d p IH]; intros H; cbn.
  - by rewrite N.eqb_refl.
  - apply not_elem_of_cons in H as [H1 H2]. destruct (d =? c) eqn:B; [apply N.eqb_eq in B; congruence|].
    rewrite IH by done. lia.
Qed.
Lemma ahead_lt d p q : ahead d (p ++ q) < N.of_nat (length p) <-> d ∈ p.
Proof.
  induction p as [|x p IH]; cbn.
  - split; [lia|intros K; by apply elem_of_nil in K].
  - rewrite elem_of_cons. destruct (x =? d) eqn:B.
    + apply N.eqb_eq in B. subst. split; [by left|lia].
    + apply N.eqb_neq in B. split; [intros K; right; apply IH; lia|]. intros [->|K]; [done|]. apply IH in K. lia.
Qed.
Lemma ahead_app c l x : c ∈ l -> ahead c (l ++ x) = ahead c l.
Proof.
  induction l as [|d l IH]; intros H; [by apply elem_of_nil in H|]. cbn. destruct (d =? c) eqn:B; [done|].
  apply elem_of_cons in H as [->|H]; [by rewrite N.eqb_refl in B|]. by rewrite IH.
Qed.

Lemma filter_split {A} (f : A -> bool) l :
  (length (List.filter f l) + length (List.filter (fun x => negb (f x)) l) = length l)%nat.
Proof. induction l as [|a l IH]; [done|]. cbn. destruct (f a); cbn; lia. Qed.
Lemma filter_nodup {A} (f : A -> bool) (l : list A) : NoDup l -> NoDup (List.filter f l).
Proof.
  induction 1 as [|x l Hx _ IH]; [constructor|]. cbn. destruct (f x); [|done]. constructor; [|done].
  intros K. apply Hx. apply elem_of_list_In in K. apply List.filter_In in K as [K _]. by apply elem_of_list_In.
Qed.
Lemma same_members (l k : list N) : NoDup l -> NoDup k -> (forall x, x ∈ l <-> x ∈ k) -> length l = length k.
Proof. intros H1 H2 H. apply Permutation_length. by apply NoDup_Permutation. Qed.

Lemma moved_ahead c l s :
  NoDup l -> NoDup s -> (forall d, d ∈ s -> d ∈ l) -> c ∈ l -> c ∉ s ->
  overtakers c l s + ahead c (List.filter (fun d => negb (existsb (N.eqb d) s)) l) = ahead c l.
Proof.
  intros Nl Ns Hs Hc Hn. apply elem_of_list_split in Hc as (p & q & ->).
  apply NoDup_app in Nl as (Np & Hpq & Nq). assert (Hcp : c ∉ p) by (intros K; apply (Hpq c K); by left).
  rewrite filter_app. cbn. destruct (existsb (N.eqb c) s) eqn:B; [by apply existsb_in in B|]. cbn.
  rewrite !ahead_prefix; [|done|intros K; apply elem_of_list_In, List.filter_In in K as [K _]; by apply elem_of_list_In in K].
  unfold overtakers. rewrite ahead_prefix by done.
  assert (E : length (List.filter (fun d => ahead d (p ++ c :: q) <? N.of_nat (length p)) s)
            = length (List.filter (fun d => existsb (N.eqb d) s) p)).
  { apply same_members; [by apply filter_nodup|by apply filter_nodup|]. intros x.
    rewrite !elem_of_list_In, !List.filter_In, <- !elem_of_list_In, N.ltb_lt, ahead_lt.
    split; intros [H1 H2]; split; try done; [by apply existsb_in|by apply existsb_in in H2]. }
  rewrite E. pose proof (filter_split (fun d => existsb (N.eqb d) s) p). lia.
Qed.

Lemma after_served c l s nw :
  NoDup l -> NoDup s -> (forall d, d ∈ s -> d ∈ l) -> c ∈ l -> c ∉ s ->
  let l' := (List.filter (fun d => negb (existsb (N.eqb d) s)) l ++ s) ++ nw in
  c ∈ l' /\ overtakers c l s + ahead c l' = ahead c l.
Proof.
  intros Nl Ns Hs Hc Hn. cbv zeta.
  assert (Hk : c ∈ List.filter (fun d => negb (existsb (N.eqb d) s)) l).
  { apply elem_of_list_In, List.filter_In. split; [by apply elem_of_list_In|].
    destruct (existsb (N.eqb c) s) eqn:B; [by apply existsb_in in B|done]. }
  split; [by apply elem_of_app; left; apply elem_of_app; left|].
  rewrite <- app_assoc, ahead_app by done. by apply moved_ahead.
Qed.

Lemma turn_to_stake w os c :
  Reachable w -> In c (w_dl w) ->
  along (fun v o => ~ In c (asked_to_stake v (fst (step v o)))) w os ->
  In c (w_dl (run w os)) /\ tally (staked_ahead c) w os + ahead c (w_dl (run w os)) = ahead c (w_dl w).
Proof.
  revert w. induction os as [|o os IH]; intros w Hr Hc Ha; [done|].
  destruct Ha as [Hn Ha]. change (run w (o :: os)) with (run (fst (step w o)) os).
  destruct (lists_served w o Hr) as (N1 & _ & S1 & _ & nw & E1 & _).
  pose proof (l_dl _ _ _ _ (lists w Hr)) as Nl.
  destruct (after_served c (w_dl w) _ nw Nl N1 S1) as [H1 H2]; [by apply elem_of_list_In|by rewrite elem_of_list_In|].
  cbv zeta in H1, H2. rewrite <- E1 in H1, H2. cbn [tally].
  destruct (IH (fst (step w o))) as [I1 I2]; [by apply reach_step|by apply elem_of_list_In|done|].
  split; [done|]. unfold staked_ahead at 1. lia.
Qed.
Lemma turn_to_unstake w os c :
  Reachable w -> In c (w_ul w) ->
  along (fun v o => ~ In c (asked_to_unstake v (fst (step v o)))) w os ->
  In c (w_ul (run w os)) /\ tally (unstaked_ahead c) w os + ahead c (w_ul (run w os)) = ahead c (w_ul w).
Proof.
  revert w. induction os as [|o os IH]; intros w Hr Hc Ha; [done|].
  destruct Ha as [Hn Ha]. change (run w (o :: os)) with (run (fst (step w o)) os).
  destruct (lists_served w o Hr) as (_ & N1 & _ & S1 & nw & _ & E1).
  pose proof (l_ul _ _ _ _ (lists w Hr)) as Nl.
  destruct (after_served c (w_ul w) _ nw Nl N1 S1) as [H1 H2]; [by apply elem_of_list_In|by rewrite elem_of_list_In|].
  cbv zeta in H1, H2. rewrite <- E1 in H1, H2. cbn [tally].
  destruct (IH (fst (step w o))) as [I1 I2]; [by apply reach_step|by apply elem_of_list_In|done|].
  split; [done|]. unfold unstaked_ahead at 1. lia.
Qed.

(** * Nobody is passed over *)
Lemma ahead_before c d l f : c ∈ l -> ahead c l < ahead d l -> f c = true -> f d = true -> d ∈ l ->
  ahead c (List.filter f l) < ahead d (List.filter f l).
Proof.
  induction l as [|x l IH]; intros Hc H Fc Fd Hd; [by apply elem_of_nil in Hc|]. cbn in H |- *.
  destruct (x =? c) eqn:B.
  - apply N.eqb_eq in B. subst. rewrite Fc. cbn. rewrite N.eqb_refl. destruct (c =? d) eqn:B2; [lia|]. lia.
  - destruct (x =? d) eqn:B2; [lia|]. apply N.eqb_neq in B, B2.
    assert (ahead c (List.filter f l) < ahead d (List.filter f l)).
    { apply IH; try done; [|lia|].
      - apply elem_of_cons in Hc as [->|]; done.
      - apply elem_of_cons in Hd as [->|]; done. }
    destruct (f x); [|done]. cbn. apply N.eqb_neq in B, B2. rewrite B, B2. lia.
Qed.
Lemma before_in_prefix c d p q : ahead c (p ++ q) < ahead d (p ++ q) -> In d p -> In c p.
Proof.
  intros H Hd. apply elem_of_list_In in Hd. apply (ahead_lt d p q) in Hd. apply elem_of_list_In, (ahead_lt c p q). lia.
Qed.

Lemma asked_candidates w u eg pays o d :
  Reachable w -> snd (step w (OTx u eg pays (DelegatePending o))) = SOk ->
  N.of_nat (length (w_dl w)) < 2 ^ 32 ->
  In d (asked_to_stake w (fst (step w (OTx u eg pays (DelegatePending o))))) ->
  In d (candidates w (default (pending_egld w) o)).
Proof.
  intros Hr Hs HU Hd. pose proof (cfgok w Hr) as (HM & _).
  did_of w (OTx u eg pays (DelegatePending o)) Hs. clear Hs Ew Es.
  match goal with H : batch_amount _ _ = Ok ?x |- _ =>
    destruct (batch_amount_inv _ _ _ H) as (K0 & _ & K);
    assert (default (pending_egld w) o = x) as Ha by (cbn in K; unfold pending_egld; by destruct o) end.
  rewrite Ha. clear Ha. match goal with H : get_delegation_contract _ _ _ _ _ _ _ = _ |- _ => rename H into G end.
  unfold asked_to_stake, registered in Hd. cbn in Hd. rewrite skipn_added in Hd.
  assert (Hd' : In d (map d_addr ds)).
  { clear -Hd. induction ds as [|[x y z] ds IH]; [done|]. cbn in *. destruct Hd as [->|Hd]; [by left|right; auto]. }
  clear Hd. cbn in G. unfold get_delegation_contract in G.
  apply rbind_ok in G as [[] [E1 G]]. rstep E1.
  apply rbind_ok in G as [[sel total] [E2 G]]. unfold select_deleg in E2. apply rbind_ok in E2 as [maxp [E3 E2]].
  apply rbind_ok in G as [[] [_ G]]. apply rbind_ok in G as [sc' [E5 G]].
  apply rbind_ok in G as [[ds1 rem] [E6 G]]. injection G as -> _.
  destruct (maxp_ok a (c_maxsel (w_cfg w)) (N.of_nat (length (w_dl w)))) as (m & Em & Hm0 & _ & _ & _ & ->); [lia|done|lia|done|].
  rewrite Em in E3. injection E3 as <-.
  apply sel_deleg_exact in E2 as [HF Ht]; [|lia]. rewrite N.sub_0_r, firstn_min in HF.
  pose proof (distribute_amount_inv _ _ _ _ _ _ _ E6) as (l' & P1 & P2 & _).
  change (candidates w a) with (firstn (N.to_nat (N.min (a / MIN_EGLD) (c_maxsel (w_cfg w))))
     (List.filter (fun c => takes_more (recp (w_pv w) c)) (w_dl w))).
  rewrite <- (infos_addr _ _ _ HF), <- P2.
  assert (S : map d_addr ds `sublist_of` map i_addr l') by (eapply picks_sublist; [|exact P1]; by intros i x [? _]).
  apply elem_of_list_In. apply elem_of_list_In in Hd'. eapply elem_of_submseteq; [exact Hd'|by apply sublist_submseteq].
Qed.

Lemma not_passed_over w u eg pays o c d :
  Reachable w -> snd (step w (OTx u eg pays (DelegatePending o))) = SOk ->
  N.of_nat (length (w_dl w)) < 2 ^ 32 ->
  In d (asked_to_stake w (fst (step w (OTx u eg pays (DelegatePending o))))) ->
  In c (w_dl w) -> ahead c (w_dl w) < ahead d (w_dl w) -> takes_more (rec w c) = true ->
  In c (candidates w (default (pending_egld w) o)).
Proof.
  intros Hr Hs HU Hd Hc Hlt Ht. pose proof (asked_candidates _ _ _ _ _ _ Hr Hs HU Hd) as Hcd.
  assert (Hd2 : d ∈ w_dl w /\ takes_more (rec w d) = true).
  { unfold candidates in Hcd. apply elem_of_list_In in Hcd.
    assert (d ∈ List.filter (fun c => takes_more (rec w c)) (w_dl w)) as K.
    { eapply elem_of_submseteq; [exact Hcd|]. apply sublist_submseteq. apply sublist_take. }
    apply elem_of_list_In, List.filter_In in K as [K1 K2]. by apply elem_of_list_In in K1. }
  destruct Hd2 as [D1 D2]. apply elem_of_list_In in Hc.
  pose proof (ahead_before c d (w_dl w) (fun c => takes_more (rec w c)) Hc Hlt Ht D2 D1) as Hb.
  unfold candidates in *. set (l := List.filter _ _) in *. set (k := N.to_nat _) in *.
  rewrite <- (firstn_skipn k l) in Hb. by eapply before_in_prefix.
Qed.

(** the candidates of an un-delegation are determined *)
Lemma undel_candidates_unique w a l k : undel_candidates w a l -> undel_candidates w a k -> l = k.
Proof.
  intros (r & H1 & H2 & H3 & H4) (s & K1 & K2 & K3 & K4).
  assert (Q : forall (l r k s : list addr), holders w = l ++ r -> holders w = k ++ s ->
     N.of_nat (length k) <= undel_limit w -> (forall l1 c l2, k = l1 ++ c :: l2 -> ~ enough w a l1) ->
     (r = [] \/ N.of_nat (length l) = undel_limit w \/ enough w a l) -> (length k <= length l)%nat).
  { clear. intros l r k s H1 K1 K2 K3 H4. destruct (Nat.le_gt_cases (length k) (length l)) as [|L]; [done|]. exfalso.
    rewrite K1 in H1. assert (E : k = l ++ skipn (length l) k).
    { rewrite <- (firstn_skipn (length l) k) at 1. f_equal.
      assert (X : firstn (length l) (k ++ s) = firstn (length l) (l ++ r)) by (by f_equal).
      rewrite take_app in X. rewrite take_app_le in X by lia. done. }
    destruct (skipn (length l) k) as [|c k2] eqn:B.
    - rewrite app_nil_r in E. subst k. lia.
    - destruct H4 as [->|[H4|H4]].
      + apply (f_equal length) in H1. rewrite !app_length in H1. cbn in H1. lia.
      + lia.
      + exact (K3 l c k2 E H4). }
  assert (length l = length k) by (apply Nat.le_antisymm; eapply Q; eassumption).
  rewrite H1 in K1. by apply app_inj_1 in K1 as [? _].
Qed.

Lemma not_passed_over_un w u eg pays o c d l :
  Reachable w -> snd (step w (OTx u eg pays (UnDelegatePending o))) = SOk ->
  N.of_nat (length (w_ul w)) < 2 ^ 32 ->
  In d (asked_to_unstake w (fst (step w (OTx u eg pays (UnDelegatePending o))))) ->
  In c (w_ul w) -> ahead c (w_ul w) < ahead d (w_ul w) -> 0 < net_stake (rec w c) ->
  undel_candidates w (default (unstake_queue w) o) l -> In c l /\ In d l.
Proof.
  intros Hr Hs HU Hd Hc Hlt Hh Hl.
  destruct (undel_candidates_picked _ _ _ _ _ Hr Hs HU) as (l' & Hl' & b & Eb & Sb & _). cbv zeta in *.
  rewrite (undel_candidates_unique _ _ _ _ Hl Hl'). clear Hl l.
  unfold asked_to_unstake, registered in Hd. rewrite Eb, skipn_added, flat_undel in Hd.
  assert (Hdl : In d l').
  { apply elem_of_list_In. apply elem_of_list_In in Hd. eapply elem_of_submseteq; [exact Hd|by apply sublist_submseteq]. }
  split; [|done]. destruct Hl' as (r & E & _).
  assert (d ∈ holders w) as K by (rewrite E; apply elem_of_app; left; by apply elem_of_list_In).
  apply elem_of_list_In in K. unfold holders in K. apply List.filter_In in K as [D1 D2]. apply elem_of_list_In in D1, Hc.
  pose proof (ahead_before c d (w_ul w) (fun c => 0 <? net_stake (rec w c)) Hc Hlt (proj2 (N.ltb_lt _ _) Hh) D2 D1) as Hb.
  fold (holders w) in Hb. rewrite E in Hb. by eapply before_in_prefix.
Qed.
