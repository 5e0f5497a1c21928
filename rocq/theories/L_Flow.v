(** L_Flow.v — amounts in flight, unbonding totals, backing of both tokens. *)
From Verif Require Export L_Lists.
Global Arguments deleg_amt : simpl never.
Global Arguments undel_amt : simpl never.
Global Arguments dto : simpl never.

(** [rel true] is equality, [rel false] is "at most" *)
Definition rel (b : bool) (x y : N) : Prop := if b then x = y else x <= y.

Record FlowAt (b : bool) (pv : gmap N prov) (P : N) (ks : list call) : Prop := {
  f_pst : forall c p, pv !! c = Some p -> rel b (sumN (map (deleg_amt c) ks)) (p_pst p);
  f_pun : forall c p, pv !! c = Some p -> rel b (sumN (map (undel_amt c) ks)) (p_pun p);
  f_psts : rel b (sumN (map deleg_any ks)) (gsum (fun _ => p_pst) pv);
  f_puns : rel b (sumN (map undel_any ks)) (gsum (fun _ => p_pun) pv);
  f_pfb : P = gsum (fun _ => p_unstaked) pv;
}.
Definition Flow (b : bool) (w : world) : Prop := FlowAt b (w_pv w) (pfb (w_pool w)) (unanswered w).

Lemma flow_perm b pv P ks ks' : Permutation ks ks' -> FlowAt b pv P ks -> FlowAt b pv P ks'.
Proof.
  intros Hp [H1 H2 H3 H4 H5].
  split; try done.
  - intros c. rewrite <- (sumN_perm _ _ (Permutation_map (deleg_amt c) Hp)). apply H1.
  - intros c. rewrite <- (sumN_perm _ _ (Permutation_map (undel_amt c) Hp)). apply H2.
  - by rewrite <- (sumN_perm _ _ (Permutation_map deleg_any Hp)).
  - by rewrite <- (sumN_perm _ _ (Permutation_map undel_any Hp)).
Qed.

(** calls that move no stake *)
Definition other (k : call) : Prop :=
  match k with KDeleg _ _ | KUndel _ _ => False | _ => True end.

Lemma other_zero k c : other k -> deleg_amt c k = 0 /\ undel_amt c k = 0 /\ deleg_any k = 0 /\ undel_any k = 0.
Proof. by destruct k. Qed.

Lemma flow_other b pv P k ks : other k -> FlowAt b pv P (k :: ks) <-> FlowAt b pv P ks.
Proof.
  intros Ho. split; intros [H1 H2 H3 H4 H5].
  - split; try done.
    + intros c p Hp. specialize (H1 c p Hp). cbn in H1. destruct (other_zero k c Ho) as (E & _). by rewrite E in H1.
    + intros c p Hp. specialize (H2 c p Hp). cbn in H2. destruct (other_zero k c Ho) as (_ & E & _). by rewrite E in H2.
    + cbn in H3. destruct (other_zero k 0 Ho) as (_ & _ & E & _). by rewrite E in H3.
    + cbn in H4. destruct (other_zero k 0 Ho) as (_ & _ & _ & E). by rewrite E in H4.
  - split; try done.
    + intros c p Hp. cbn. destruct (other_zero k c Ho) as (E & _). rewrite E. by apply H1.
    + intros c p Hp. cbn. destruct (other_zero k c Ho) as (_ & E & _). rewrite E. by apply H2.
    + cbn. destruct (other_zero k 0 Ho) as (_ & _ & E & _). by rewrite E.
    + cbn. destruct (other_zero k 0 Ho) as (_ & _ & _ & E). by rewrite E.
Qed.

(** one record changes, the pending amounts of that provider with it *)
Lemma flow_upd b b' pv P P' ks ks' c p p' :
  pv !! c = Some p ->
  (forall x, x <> c -> sumN (map (deleg_amt x) ks') = sumN (map (deleg_amt x) ks)) ->
  (forall x, x <> c -> sumN (map (undel_amt x) ks') = sumN (map (undel_amt x) ks)) ->
  (rel b (sumN (map (deleg_amt c) ks)) (p_pst p) -> rel b (sumN (map (deleg_amt c) ks')) (p_pst p')) ->
  (rel b (sumN (map (undel_amt c) ks)) (p_pun p) -> rel b (sumN (map (undel_amt c) ks')) (p_pun p')) ->
  (forall T T', T' + p_pst p = T + p_pst p' ->
     rel b (sumN (map deleg_any ks)) T -> rel b (sumN (map deleg_any ks')) T') ->
  (forall T T', T' + p_pun p = T + p_pun p' ->
     rel b (sumN (map undel_any ks)) T -> rel b (sumN (map undel_any ks')) T') ->
  P' + p_unstaked p = P + p_unstaked p' -> b' = b ->
  FlowAt b pv P ks -> FlowAt b' (<[c := p']> pv) P' ks'.
Proof.
  intros Hp D1 D2 D3 D4 D5 D6 D7 -> [H1 H2 H3 H4 H5].
  pose proof (gsum_insert (fun _ : N => p_pst) pv c p') as G1.
  pose proof (gsum_insert (fun _ : N => p_pun) pv c p') as G2.
  pose proof (gsum_insert (fun _ : N => p_unstaked) pv c p') as G3.
  unfold gat in *. rewrite Hp in *.
  split.
  - intros x q. destruct (decide (c = x)) as [<-|Hn].
    + rewrite lookup_insert. intros [= <-]. auto.
    + rewrite lookup_insert_ne, D1 by done. apply H1.
  - intros x q. destruct (decide (c = x)) as [<-|Hn].
    + rewrite lookup_insert. intros [= <-]. auto.
    + rewrite lookup_insert_ne, D2 by done. apply H2.
  - eapply D5; [|exact H3]. lia.
  - eapply D6; [|exact H4]. lia.
  - lia.
Qed.

Lemma flow_same b pv P P' ks c p p' :
  pv !! c = Some p -> p_pst p' = p_pst p -> p_pun p' = p_pun p ->
  P' + p_unstaked p = P + p_unstaked p' ->
  FlowAt b pv P ks -> FlowAt b (<[c := p']> pv) P' ks.
Proof.
  intros Hp E1 E2 E3. eapply flow_upd; try done.
  - by rewrite E1.
  - by rewrite E2.
  - rewrite E1. intros T T' HT. by replace T' with T by lia.
  - rewrite E2. intros T T' HT. by replace T' with T by lia.
Qed.

Lemma sum_kdeleg c ds : sumN (map (deleg_amt c) (map kdeleg ds)) = dtos c ds.
Proof. unfold dtos. induction ds as [|d r IH]; cbn; [done|]. rewrite IH. done. Qed.
Lemma sum_kundel c ds : sumN (map (undel_amt c) (map kundel ds)) = dtos c ds.
Proof. unfold dtos. induction ds as [|d r IH]; cbn; [done|]. rewrite IH. done. Qed.
Lemma sum_kdeleg0 c ds : sumN (map (undel_amt c) (map kdeleg ds)) = 0.
Proof. induction ds as [|d r IH]; cbn; [done|]. rewrite IH. done. Qed.
Lemma sum_kundel0 c ds : sumN (map (deleg_amt c) (map kundel ds)) = 0.
Proof. induction ds as [|d r IH]; cbn; [done|]. rewrite IH. done. Qed.
Lemma sum_any_deleg ds : sumN (map deleg_any (map kdeleg ds)) = damts ds /\ sumN (map undel_any (map kdeleg ds)) = 0.
Proof. unfold damts. induction ds as [|d r [IH1 IH2]]; cbn; [done|]. lia. Qed.
Lemma sum_any_undel ds : sumN (map undel_any (map kundel ds)) = damts ds /\ sumN (map deleg_any (map kundel ds)) = 0.
Proof. unfold damts. induction ds as [|d r [IH1 IH2]]; cbn; [done|]. lia. Qed.

Lemma flow_take b i k r w :
  nth_error (w_res w) i = Some (k, r) -> Flow b w ->
  FlowAt b (w_pv w) (pfb (w_pool w)) (k :: w_calls w ++ map fst (drop_nth i (w_res w))).
Proof. intros H. apply flow_perm, (unans_cb _ _ _ _ H). Qed.

Lemma flow_deploy b w : Deployed w -> Flow b w.
Proof.
  intros (owner & acc & fees & rpe & minr & maxsel & maxaddr & unbond & epoch & H). revert H.
  unfold deploy. intros H. apply rbind_ok in H as [[] [E H]]. apply rbind_ok in H as [g [E1 H]]. rstep H.
  split; cbn; try (intros c p; by rewrite lookup_empty); try (rewrite gsum_empty; by destruct b). 
Qed.

Lemma flow_le b pv P k ks : FlowAt b pv P (k :: ks) -> FlowAt false pv P ks.
Proof.
  intros [H1 H2 H3 H4 H5].
  assert (Hb : forall x y z, rel b (x + y) z -> rel false y z) by (destruct b; cbn; lia).
  split; try done.
  - intros c p Hp. eapply Hb. exact (H1 c p Hp).
  - intros c p Hp. eapply Hb. exact (H2 c p Hp).
  - eapply Hb. exact H3.
  - eapply Hb. exact H4.
Qed.

Lemma rel_add b x y z : rel b x y -> rel b (z + x) (y + z).
Proof. destruct b; cbn; lia. Qed.
Lemma rel_sub b x y z : rel b (z + x) y -> rel b x (y - z).
Proof. destruct b; cbn; lia. Qed.
Lemma rel_sub' b x z T T' p :
  z <= p -> T' + p = T + (p - z) -> rel b (z + x) T -> rel b x T'.
Proof. destruct b; cbn; lia. Qed.
Lemma rel_keep b x T T' p : T' + p = T + p -> rel b x T -> rel b x T'.
Proof. intros. by replace T' with T by lia. Qed.

Lemma sel_recs pv ds (Q : gmap N prov -> dsel -> Prop) :
  (forall d, Q pv d -> exists p, pv !! d_addr d = Some p) ->
  Forall (Q pv) ds -> Forall (fun d => is_Some (pv !! d_addr d)) ds.
Proof. intros HQ. apply Forall_impl. intros d Hd. destruct (HQ d Hd) as [p Hp]. by exists p. Qed.

Lemma deleg_sel_recs pv ds : Forall (deleg_sel_ok pv) ds -> Forall (fun d => is_Some (pv !! d_addr d)) ds.
Proof. apply (sel_recs pv ds deleg_sel_ok). intros d (p & Hp & _). eauto. Qed.
Lemma undel_sel_recs pv ds : Forall (undel_sel_ok pv) ds -> Forall (fun d => is_Some (pv !! d_addr d)) ds.
Proof. apply (sel_recs pv ds undel_sel_ok). intros d (p & Hp & _). eauto. Qed.

(** nothing in flight for a provider without record *)
Lemma none_in_flight dl pv c ks :
  (forall x, x ∈ dl -> is_Some (pv !! x)) -> pv !! c = None -> Forall (fly_ok dl pv) ks ->
  sumN (map (deleg_amt c) ks) = 0 /\ sumN (map (undel_amt c) ks) = 0.
Proof.
  intros Hr Hn HF. induction HF as [|k r Hk _ [IH1 IH2]]; cbn; [done|]. rewrite IH1, IH2.
  destruct k; try done; cbn in Hk; apply Hr in Hk as [p Hp]; unfold deleg_amt, undel_amt;
    (destruct (N.eqb_spec c0 c) as [->|]; [congruence|done]).
Qed.

Lemma flow_did b w o w' s :
  Lists w -> Flow b w -> did w o w' s -> (b = true -> ~ cb_failed s) -> Flow b w'.
Proof.
  intros L I D Hs. destruct D; try exact I.
  - um_clean. exact I.
  - (* delegate batch *)
    match goal with H : Forall (deleg_sel_ok _) _ |- _ => pose proof (deleg_sel_recs _ _ H) as Hr end.
    unfold Flow in *. cbn. unfold unanswered; cbn.
    apply (flow_perm _ _ _ (map kdeleg ds ++ unanswered w)); [symmetry; apply unans_new|].
    destruct I as [L1 L2 L3 L4 L5]. destruct (sum_any_deleg ds) as [E1 E2].
    split.
    + intros x p. rewrite add_psts_lookup, map_app, sumN_app, sum_kdeleg.
      destruct (w_pv w !! x) as [q|] eqn:Eq; [|done]. cbn. intros [= <-]. cbn. apply rel_add. auto.
    + intros x p. rewrite add_psts_lookup, map_app, sumN_app, sum_kdeleg0.
      destruct (w_pv w !! x) as [q|] eqn:Eq; [|done]. cbn. intros [= <-]. cbn. apply (L2 _ _ Eq).
    + rewrite map_app, sumN_app, E1, gsum_pst_add_psts by done. by apply rel_add.
    + rewrite map_app, sumN_app, E2, (gsum_add_psts p_pun) by done. done.
    + cbn. rewrite (gsum_add_psts p_unstaked) by done. done.
  - (* un-delegate batch *)
    match goal with H : Forall (undel_sel_ok _) _ |- _ => pose proof (undel_sel_recs _ _ H) as Hr end.
    unfold Flow in *. cbn. unfold unanswered; cbn.
    apply (flow_perm _ _ _ (map kundel ds ++ unanswered w)); [symmetry; apply unans_new|].
    destruct I as [L1 L2 L3 L4 L5]. destruct (sum_any_undel ds) as [E1 E2].
    split.
    + intros x p. rewrite add_puns_lookup, map_app, sumN_app, sum_kundel0.
      destruct (w_pv w !! x) as [q|] eqn:Eq; [|done]. cbn. intros [= <-]. cbn. apply (L1 _ _ Eq).
    + intros x p. rewrite add_puns_lookup, map_app, sumN_app, sum_kundel.
      destruct (w_pv w !! x) as [q|] eqn:Eq; [|done]. cbn. intros [= <-]. cbn. apply rel_add. auto.
    + rewrite map_app, sumN_app, E2, (gsum_add_puns p_pst) by done. done.
    + rewrite map_app, sumN_app, E1, gsum_pun_add_puns by done. by apply rel_add.
    + cbn. rewrite (gsum_add_puns p_unstaked) by done. done.
  - unfold Flow in *. cbn. unfold unanswered; cbn.
    apply (flow_perm _ _ _ ([KWithd c] ++ unanswered w)); [symmetry; apply unans_new|]. by apply flow_other.
  - unfold Flow in *. cbn. unfold unanswered; cbn.
    apply (flow_perm _ _ _ ([KClaim (w_dl w)] ++ unanswered w)); [symmetry; apply unans_new|]. by apply flow_other.
  - (* whitelist *)
    unfold Flow in *. cbn. unfold unanswered; cbn.
    apply (flow_perm _ _ _ ([KWhite c payment caller] ++ unanswered w)); [symmetry; apply unans_new|].
    apply flow_other; [done|].
    match goal with H : w_pv w !! c = None |- _ => rename H into Hnone end.
    destruct (none_in_flight _ _ c _ (l_rec _ _ _ _ L) Hnone (l_fly _ _ _ _ L)) as [Z1 Z2].
    destruct I as [L1 L2 L3 L4 L5]. split; cbn; rewrite ?gsum_insert_new by done; cbn; try done.
    + intros x p. destruct (decide (c = x)) as [<-|Hn].
      * rewrite lookup_insert. intros [= <-]. cbn. rewrite Z1. by destruct b.
      * rewrite lookup_insert_ne by done. apply L1.
    + intros x p. destruct (decide (c = x)) as [<-|Hn].
      * rewrite lookup_insert. intros [= <-]. cbn. rewrite Z2. by destruct b.
      * rewrite lookup_insert_ne by done. apply L2.
  - eapply flow_same; [eassumption|done..|exact I].
  - eapply flow_same; [eassumption|done..|exact I].
  - unfold Flow in *. cbn. unfold unanswered; cbn.
    apply (flow_perm _ _ _ ([KIssue true caller payment] ++ unanswered w)); [symmetry; apply unans_new|]. by apply flow_other.
  - unfold Flow in *. cbn. unfold unanswered; cbn.
    apply (flow_perm _ _ _ ([KIssue false caller payment] ++ unanswered w)); [symmetry; apply unans_new|]. by apply flow_other.
  - match goal with H : exec_call _ _ _ = _ |- _ => apply exec_call_frame in H as [l ->] end.
    unfold Flow in *. cbn. unfold unanswered; cbn.
    eapply flow_perm; [symmetry; apply unans_exec; eassumption|]. exact I.
  - (* failed callback *)
    assert (b = false) as -> by (destruct b; [exfalso; by apply Hs|done]).
    apply (flow_take _ _ _ _ _ ltac:(eassumption)) in I. apply flow_le in I. exact I.
  - (* un-delegated *)
    apply (flow_take _ _ _ _ _ ltac:(eassumption)) in I. unfold Flow, unanswered; cbn.
    eapply flow_upd; [eassumption|..|exact I]; try done.
    + intros x Hx. cbn. unfold undel_amt at 2. destruct (N.eqb_spec c x); [by subst|]. lia.
    + cbn. unfold undel_amt at 1. rewrite N.eqb_refl. apply rel_sub.
    + cbn. intros T T'. apply rel_keep.
    + cbn. intros T T'. apply rel_sub'. done.
    + cbn. lia.
  - apply (flow_take _ _ _ _ _ ltac:(eassumption)) in I. unfold Flow, unanswered; cbn.
    eapply flow_upd; [eassumption|..|exact I]; try done.
    + intros x Hx. cbn. unfold undel_amt at 2. destruct (N.eqb_spec c x); [by subst|]. lia.
    + cbn. unfold undel_amt at 1. rewrite N.eqb_refl. apply rel_sub.
    + cbn. intros T T'. apply rel_keep.
    + cbn. intros T T'. apply rel_sub'. done.
  - apply (flow_take _ _ _ _ _ ltac:(eassumption)) in I. unfold Flow, unanswered; cbn.
    eapply flow_upd; [eassumption|..|exact I]; try done.
    + intros x Hx. cbn. unfold deleg_amt at 2. destruct (N.eqb_spec c x); [by subst|]. lia.
    + cbn. unfold deleg_amt at 1. rewrite N.eqb_refl. apply rel_sub.
    + cbn. intros T T'. apply rel_sub'. done.
    + cbn. intros T T'. apply rel_keep.
  - apply (flow_take _ _ _ _ _ ltac:(eassumption)) in I. unfold Flow, unanswered; cbn.
    eapply flow_upd; [eassumption|..|exact I]; try done.
    + intros x Hx. cbn. unfold deleg_amt at 2. destruct (N.eqb_spec c x); [by subst|]. lia.
    + cbn. unfold deleg_amt at 1. rewrite N.eqb_refl. apply rel_sub.
    + cbn. intros T T'. apply rel_sub'. done.
    + cbn. intros T T'. apply rel_keep.
  - apply (flow_take _ _ _ _ _ ltac:(eassumption)) in I. by apply flow_other in I.
  - apply (flow_take _ _ _ _ _ ltac:(eassumption)) in I. apply flow_other in I; [|done].
    unfold Flow, unanswered; cbn. eapply flow_same; [eassumption|done|done| |exact I]. cbn. lia.
  - apply (flow_take _ _ _ _ _ ltac:(eassumption)) in I. by apply flow_other in I.
  - apply (flow_take _ _ _ _ _ ltac:(eassumption)) in I. apply flow_other in I; [|done]. exact I.
  - (* whitelisted *)
    apply (flow_take _ _ _ _ _ ltac:(eassumption)) in I. apply flow_other in I; [|done].
    unfold Flow, unanswered; cbn. eapply flow_same; [eassumption|done|done| |exact I]. done.
  - (* whitelisting failed *)
    apply (flow_take _ _ _ _ _ ltac:(eassumption)) in I. apply flow_other in I; [|done].
    destruct (lists_take _ _ _ _ ltac:(eassumption) L) as (_ & [_ (p & Hp & Hf)] & _).
    destruct Hf as (F1 & F2 & F3 & F4).
    unfold Flow, unanswered; cbn. destruct I as [L1 L2 L3 L4 L5].
    rewrite (gsum_delete _ _ _ _ Hp), F3 in L3. rewrite (gsum_delete _ _ _ _ Hp), F4 in L4.
    rewrite (gsum_delete _ _ _ _ Hp), F2 in L5.
    split; try done.
    + intros x q Hq. apply lookup_delete_Some in Hq as [_ Hq]. eauto.
    + intros x q Hq. apply lookup_delete_Some in Hq as [_ Hq]. eauto.
  - apply (flow_take _ _ _ _ _ ltac:(eassumption)) in I. apply flow_other in I; [|done]. exact I.
  - apply (flow_take _ _ _ _ _ ltac:(eassumption)) in I. apply flow_other in I; [|done]. exact I.
  - assert (b = false) as -> by (destruct b; [exfalso; by apply Hs|done]).
    apply (flow_take _ _ _ _ _ ltac:(eassumption)) in I. apply flow_le in I. exact I.
Qed.

Lemma flow w : Reachable w -> Flow false w.
Proof.
  intros H. cut (Flow false w /\ Lists w); [tauto|]. revert w H. apply reach_ind.
  - intros. split; [apply flow_deploy; unfold Deployed; eauto 20|eapply lists_deploy; eauto].
  - intros v H. exact H.
  - intros v o v' s _ [H1 H2] D. split; [eapply flow_did; eauto; done|eapply lists_did; eauto].
Qed.

Lemma clean_reach w : ReachableClean w -> Reachable w.
Proof. induction 1; [eapply reach_deploy; eauto|by apply reach_step]. Qed.

Lemma flow_clean w : ReachableClean w -> Flow true w.
Proof.
  induction 1 as [|w o Hc IH Hs].
  - apply flow_deploy. unfold Deployed. eauto 20.
  - eapply flow_did; [| |apply step_did|done].
    + pose proof (lists w (clean_reach w Hc)) as Hl. exact Hl.
    + exact IH.
Qed.

(** * Backing *)
Definition ust_pots (w : world) : N :=
  pfu (w_pool w) + gsum (fun _ => p_pun) (w_pv w) + pfb (w_pool w) + withdrawn (w_pool w).
Definition owed (w : world) : N := reserve (w_pool w) + pfu (w_pool w) + gsum (fun _ => p_pun) (w_pv w).
Definition owned (w : world) : N :=
  pend (w_pool w) + gsum (fun _ => p_staked) (w_pv w) + gsum (fun _ => p_pst) (w_pv w).

Lemma users_issue caller a u w n w' :
  caller <> SELF -> ust_issue caller a u w n w' -> users_ust (w_ust w') = users_ust (w_ust w) + a.
Proof.
  intros Hc D. destruct D; cbn; unfold credit.
  - match goal with |- users_ust (<[_ := ?v]> ?M) = _ => pose proof (users_other M n caller v Hc) as Hu end.
    rewrite users_self in Hu. lia.
  - match goal with |- users_ust (<[_ := ?v]> ?M) = _ => pose proof (users_other M 1 caller v Hc) as Hu end.
    rewrite users_self in Hu. lia.
  - match goal with |- users_ust (<[_ := ?v]> ?M) = _ => pose proof (users_other M (w_last w + 1) caller v Hc) as Hu end.
    rewrite users_self in Hu. lia.
  - match goal with |- users_ust (<[_ := ?v]> ?M) = _ => pose proof (users_other M (w_last w + 1) caller v Hc) as Hu end.
    rewrite !users_self in Hu. lia.
Qed.

Lemma users_maybe caller r w w' :
  caller <> SELF -> ust_maybe caller r w w' -> users_ust (w_ust w') = users_ust (w_ust w) + r.
Proof.
  intros Hc [Hr|n w2 Hr _ D]; [lia|]. by eapply users_issue.
Qed.

Lemma back_total_eq w pays pot :
  Forall (matured w) pays -> back_total (given_back pays pot) = amounts pays - pot.
Proof.
  intros HF. unfold given_back. destruct (amounts pays <=? pot) eqn:B; [cbn; lia|].
  destruct (list.last pays) as [[t a]|] eqn:El.
  - apply last_Some_elem_of, elem_of_list_In in El. rewrite List.Forall_forall in HF.
    destruct (HF _ El) as (m & e & u & Ht & _). cbn in Ht. subst t. done.
  - apply last_None in El as ->. unfold amounts in *; cbn in *. lia.
Qed.

Lemma users_move n from to a w :
  from <> SELF -> a <= ubal w n from ->
  users_ust (credit (<[(n, from) := ubal w n from - a]> (w_ust w)) (n, to) a)
   + (if to =? SELF then a else 0) = users_ust (w_ust w).
Proof.
  intros Hf Ha. unfold ubal in *. unfold credit.
  pose proof (users_other (w_ust w) n from (amt_at (w_ust w) (n, from) - a) Hf) as H1.
  destruct (N.eqb_spec to SELF) as [->|Ht].
  - rewrite users_self. lia.
  - match goal with |- users_ust (<[_ := ?v]> ?M) + _ = _ => pose proof (users_other M n to v Ht) as H2 end. lia.
Qed.

Ltac gs c p' :=
  match goal with H : w_pv ?w !! c = Some ?p |- _ =>
    pose proof (gsum_insert (fun _ : N => p_pun) (w_pv w) c p');
    pose proof (gsum_insert (fun _ : N => p_pst) (w_pv w) c p');
    pose proof (gsum_insert (fun _ : N => p_staked) (w_pv w) c p');
    unfold gat in *; rewrite H in *; cbn in *
  end.

Ltac subst_pools := repeat match goal with x := _ : pool |- _ => subst x end.

Lemma ust_backing_did w o w' s :
  Lists w -> did w o w' s ->
  users_ust (w_ust w') + ust_given_away o s + ust_pots w = users_ust (w_ust w) + ust_pots w'.
Proof.
  intros L D. unfold ust_pots. destruct D; subst_pools; try (cbn; lia).
  - (* not done *)
    assert (ust_given_away o s = 0) as -> by (destruct o, s; try done; cbn in *; done). lia.
  - pose proof (split_facts (pfu (w_pool w)) a) as Hs. cbn zeta in Hs. destruct Hs as (Hs1 & Hs2 & _).
    subst r. cbn. lia.
  - pose proof (split_facts (pend (w_pool w)) (redeemed x (w_pool w))) as Hs. cbn zeta in Hs. destruct Hs as (Hs1 & Hs2 & _).
    match goal with H : ust_maybe _ _ _ _ |- _ => pose proof (users_maybe _ _ _ _ ltac:(eassumption) H) as Hu end.
    rewrite egld_paid_eq in Hu. cbn in Hu.
    um_clean. subst e i r. cbn in *. lia.
  - match goal with H : wd_post _ _ _ _ _ |- _ => destruct H as (K1 & K2 & K3 & K4) end.
    rewrite (back_total_eq w) in K4 by done. subst s. cbn in *. lia.
  - cbn. rewrite (gsum_add_psts p_pun) by done. lia.
  - match goal with H : Forall (undel_sel_ok _) _ |- _ => pose proof (undel_sel_recs _ _ H) as Hr end.
    cbn. rewrite gsum_pun_add_puns by done. lia.
  - match goal with H : w_pv w !! c = None |- _ => cbn; rewrite (gsum_insert_new _ _ _ _ H); cbn; lia end.
  - gs c (set_p_admin admin p). lia.
  - gs c (with_params total cap nodes apy elig p). lia.
  - match goal with H : exec_call _ _ _ = _ |- _ => apply exec_call_frame in H as [l ->] end. cbn. lia.
  - gs c (p_undelegated a p). lia.
  - gs c (p_undel_failed a p). lia.
  - gs c (p_delegated a p). lia.
  - gs c (p_deleg_failed a p). lia.
  - gs c (set_p_unstaked (p_unstaked p - v) p). lia.
  - gs c (set_p_staked (p_staked p + a) p). lia.
  - destruct (lists_take _ _ _ _ ltac:(eassumption) L) as (_ & [_ (p & Hp & Hf)] & _).
    destruct Hf as (F1 & F2 & F3 & F4). cbn. rewrite (gsum_delete _ (w_pv w) _ _ Hp), F4. lia.
  - cbn. pose proof (users_move n from to a w). lia.
Qed.

Lemma reserve_backing_did w o w' s :
  Lists w -> did w o w' s ->
  owed w' + owned w + migrated_pending o s = owned w' + owed w + migrated_stake o s.
Proof.
  intros L D. unfold owed, owned. destruct D; subst_pools; try (cbn; lia).
  - assert (migrated_pending o s = 0 /\ migrated_stake o s = 0) as [-> ->] by (split; destruct o, s; try done; cbn in *; by destruct ep). lia.
  - pose proof (split_facts (pfu (w_pool w)) a) as Hs. cbn zeta in Hs. destruct Hs as (Hs1 & Hs2 & _).
    subst r. cbn. lia.
  - pose proof (split_facts (pend (w_pool w)) (redeemed x (w_pool w))) as Hs. cbn zeta in Hs. destruct Hs as (Hs1 & Hs2 & _).
    um_clean. subst e i r. cbn in *. lia.
  - match goal with H : Forall (deleg_sel_ok _) _ |- _ => pose proof (deleg_sel_recs _ _ H) as Hr end.
    cbn. rewrite (gsum_add_psts p_pun), (gsum_add_psts p_staked), gsum_pst_add_psts by done. lia.
  - match goal with H : Forall (undel_sel_ok _) _ |- _ => pose proof (undel_sel_recs _ _ H) as Hr end.
    cbn. rewrite (gsum_add_puns p_pst), (gsum_add_puns p_staked), gsum_pun_add_puns by done. lia.
  - match goal with H : w_pv w !! c = None |- _ => cbn; rewrite !(gsum_insert_new _ _ _ _ H); cbn; lia end.
  - gs c (set_p_admin admin p). lia.
  - gs c (with_params total cap nodes apy elig p). lia.
  - destruct ep; try done; cbn; lia.
  - match goal with H : exec_call _ _ _ = _ |- _ => apply exec_call_frame in H as [l ->] end. cbn. lia.
  - gs c (p_undelegated a p). lia.
  - gs c (p_undel_failed a p). lia.
  - gs c (p_delegated a p). lia.
  - gs c (p_deleg_failed a p). lia.
  - gs c (set_p_unstaked (p_unstaked p - v) p). lia.
  - gs c (set_p_staked (p_staked p + a) p). lia.
  - destruct (lists_take _ _ _ _ ltac:(eassumption) L) as (_ & [_ (p & Hp & Hf)] & _).
    destruct Hf as (F1 & F2 & F3 & F4). cbn. rewrite !(gsum_delete _ (w_pv w) _ _ Hp), F1, F3, F4. lia.
Qed.

Lemma deployed_reach w : Deployed w -> Reachable w.
Proof. intros (?&?&?&?&?&?&?&?&?&H). econstructor; eauto. Qed.

(** a quantity that every step changes by a given amount *)
Lemma history_balance (X Y : world -> N) (f g : op -> status -> N) :
  (forall w w', w = set_log [] w' -> X w = X w' /\ Y w = Y w') ->
  (forall w o w' s, Lists w -> did w o w' s -> X w' + Y w + f o s = Y w' + X w + g o s) ->
  forall os w, Reachable w ->
  X (run w os) + Y w + history_sum f w os = Y (run w os) + X w + history_sum g w os.
Proof.
  intros Hlog Hdid os. induction os as [|o os IH]; intros w Hw; cbn [run history_sum]; [lia|].
  specialize (IH (fst (step w o)) (reach_step w o Hw)).
  pose proof (Hdid _ _ _ _ (lists w Hw : Lists (set_log [] w)) (step_did w o)) as Hd.
  destruct (Hlog (set_log [] w) w eq_refl) as [E1 E2]. lia.
Qed.

Lemma deployed_zero w : Deployed w ->
  w_pool w = Pool 0 0 0 0 0 0 0 /\ w_pv w = ∅ /\ w_ust w = ∅ /\ w_ls w = ∅.
Proof.
  intros (owner & acc & fees & rpe & minr & maxsel & maxaddr & unbond & epoch & H). revert H.
  unfold deploy. intros H. apply rbind_ok in H as [[] [E H]]. apply rbind_ok in H as [g [E1 H]]. rstep H. done.
Qed.

Lemma ust_backing w os :
  Deployed w ->
  ust_of_users (run w os) + history_sum ust_given_away w os
  = unstake_queue (run w os) + pending_unstaking_total (run w os) + unbonding (run w os)
    + total_withdrawn (run w os).
Proof.
  intros Hd.
  pose proof (history_balance (fun w => users_ust (w_ust w)) ust_pots ust_given_away (fun _ _ => 0)) as H.
  assert (Z : forall os w, history_sum (fun _ _ => 0) w os = 0).
  { intros l. induction l; intros v; cbn [history_sum]; [done|]. rewrite IHl. done. }
  specialize (H ltac:(intros ? ? ->; done)).
  specialize (H ltac:(intros; pose proof (ust_backing_did w0 o w' s); intuition lia) os w (deployed_reach w Hd)).
  rewrite Z in H. destruct (deployed_zero w Hd) as (E1 & E2 & E3 & _).
  assert (users_ust (w_ust w) = 0) as Z1 by (rewrite E3; apply gsum_empty).
  assert (ust_pots w = 0) as Z2 by (unfold ust_pots; rewrite E1, E2, gsum_empty; done).
  change (users_ust (w_ust (run w os)) + history_sum ust_given_away w os = ust_pots (run w os)).
  rewrite Z1, Z2 in H. lia.
Qed.

Lemma reserve_backing w os :
  Deployed w ->
  virtual_reserve (run w os) + unstake_queue (run w os) + pending_unstaking_total (run w os)
    + history_sum migrated_pending w os
  = pending_egld (run w os) + staked_total (run w os) + pending_staking_total (run w os)
    + history_sum migrated_stake w os.
Proof.
  intros Hd.
  pose proof (history_balance owed owned migrated_pending migrated_stake) as H.
  specialize (H ltac:(intros ? ? ->; done) reserve_backing_did os w (deployed_reach w Hd)).
  destruct (deployed_zero w Hd) as (E1 & E2 & _).
  assert (owed w = 0 /\ owned w = 0) as [Z1 Z2] by (unfold owed, owned; rewrite E1, E2, !gsum_empty; done).
  change (owed (run w os) + history_sum migrated_pending w os = owned (run w os) + history_sum migrated_stake w os).
  lia.
Qed.

Lemma clean_run_reach w os : ReachableClean w -> clean_history w os -> ReachableClean (run w os).
Proof.
  unfold clean_history. revert w. induction os as [|o os IH]; intros w Hw H; cbn [run statuses] in *; [done|].
  inversion_clear H. apply IH; [|done]. by apply clean_step.
Qed.

Lemma deployed_clean w : Deployed w -> ReachableClean w.
Proof. intros (?&?&?&?&?&?&?&?&?&H). eapply clean_deploy; eauto. Qed.

Lemma ust_backing_clean w os :
  Deployed w -> clean_history w os ->
  ust_of_users (run w os) + history_sum ust_given_away w os
  = unstake_queue (run w os) + undelegating_total (run w os) + unbonding (run w os)
    + total_withdrawn (run w os).
Proof.
  intros Hd Hc. rewrite ust_backing by done.
  assert (E : pending_unstaking_total (run w os) = undelegating_total (run w os)).
  { symmetry. exact (f_puns _ _ _ _ (flow_clean _ (clean_run_reach w os (deployed_clean w Hd) Hc))). }
  by rewrite E.
Qed.

Lemma reserve_backing_clean w os :
  Deployed w -> clean_history w os ->
  virtual_reserve (run w os) + unstake_queue (run w os) + undelegating_total (run w os)
    + history_sum migrated_pending w os
  = pending_egld (run w os) + staked_total (run w os) + delegating_total (run w os)
    + history_sum migrated_stake w os.
Proof.
  intros Hd Hc.
  pose proof (flow_clean _ (clean_run_reach w os (deployed_clean w Hd) Hc)) as HF.
  assert (E : pending_unstaking_total (run w os) = undelegating_total (run w os)).
  { symmetry. exact (f_puns _ _ _ _ HF). }
  assert (E' : pending_staking_total (run w os) = delegating_total (run w os)).
  { symmetry. exact (f_psts _ _ _ _ HF). }
  rewrite <- E, <- E'. by apply reserve_backing.
Qed.

Lemma in_flight_clean w c p :
  ReachableClean w -> w_pv w !! c = Some p ->
  p_pst p = deleg_in_flight w c /\ p_pun p = undel_in_flight w c.
Proof.
  intros H Hp. pose proof (flow_clean w H) as HF.
  split; symmetry; [exact (f_pst _ _ _ _ HF c p Hp)|exact (f_pun _ _ _ _ HF c p Hp)].
Qed.

Lemma in_flight_le w c p :
  Reachable w -> w_pv w !! c = Some p ->
  deleg_in_flight w c <= p_pst p /\ undel_in_flight w c <= p_pun p.
Proof.
  intros H Hp. pose proof (flow w H) as HF.
  split; [exact (f_pst _ _ _ _ HF c p Hp)|exact (f_pun _ _ _ _ HF c p Hp)].
Qed.

(** a provider without record has nothing in flight *)
Lemma in_flight_none w c :
  Reachable w -> w_pv w !! c = None -> deleg_in_flight w c = 0 /\ undel_in_flight w c = 0.
Proof.
  intros H Hn. pose proof (lists w H) as L.
  exact (none_in_flight _ _ c _ (l_rec _ _ _ _ L) Hn (l_fly _ _ _ _ L)).
Qed.

Lemma unbonding_is_sum w : Reachable w -> unbonding w = unstaked_total w.
Proof. intros H. exact (f_pfb _ _ _ _ (flow w H)). Qed.
