(** L_Net.v — net stakes stay zero or at least 1 EGLD as long as no provider
    rejects a delegation. *)
From Verif Require Export L_Score.

Definition min_call (k : call) : Prop := match k with KUndel _ a | KWhite _ a _ => MIN_EGLD <= a | _ => True end.
Definition not_rejected (x : call * reply) : Prop := match x with (KDeleg _ _, RFail) => False | _ => True end.
Record Net (w : world) : Prop := {
  n_rec : map_Forall (fun _ p => net_ok p) (w_pv w);
  n_min : Forall min_call (unanswered w);
  n_res : Forall not_rejected (w_res w);
}.

Lemma dtos_none c ds : c ∉ map d_addr ds -> dtos c ds = 0.
Proof.
  unfold dtos. induction ds as [|d r IH]; intros H; cbn; [done|]. rewrite IH by (intros K; apply H; by right).
  unfold dto. destruct (N.eqb_spec (d_addr d) c) as [<-|]; [|done]. exfalso. apply H. by left.
Qed.

Lemma dtos_one c ds : NoDup (map d_addr ds) -> c ∈ map d_addr ds -> exists d, d ∈ ds /\ d_addr d = c /\ dtos c ds = d_amt d.
Proof.
  unfold dtos. induction ds as [|d r IH]; intros HN Hc; [by apply elem_of_nil in Hc|]. cbn in *.
  apply list.NoDup_cons in HN as [Hd HN]. destruct (decide (d_addr d = c)) as [<-|Hn].
  - exists d. split_and!; [by left|done|]. fold (dtos (d_addr d) r). rewrite dtos_none by done. unfold dto. rewrite N.eqb_refl. lia.
  - apply elem_of_cons in Hc as [?|Hc]; [congruence|]. destruct (IH HN Hc) as (d' & H1 & H2 & H3). exists d'. split_and!; [by right|done|].
    rewrite H3. unfold dto. destruct (N.eqb_spec (d_addr d) c) as [<-|]; [done|lia].
Qed.

Lemma dtos_min c ds : Forall (fun d => MIN_EGLD <= d_amt d) ds -> dtos c ds = 0 \/ MIN_EGLD <= dtos c ds.
Proof.
  unfold dtos. induction 1 as [|d r Hd _ IH]; cbn; [by left|]. unfold dto at 1 3. destruct (d_addr d =? c); lia.
Qed.

Lemma net_ins (m : gmap N prov) c p :
  map_Forall (fun _ p => net_ok p) m -> net_ok p -> map_Forall (fun _ p => net_ok p) (<[c := p]> m).
Proof. intros. by apply map_Forall_insert_2. Qed.

Lemma drop_forall {A} (P : A -> Prop) i l : Forall P l -> Forall P (drop_nth i l).
Proof.
  intros H. revert i. induction H as [|x l Hx Hl IH]; intros i; destruct i; cbn; try constructor; auto.
Qed.

Lemma net_did w o w' s : Lists w -> ~ rejects_delegation w o -> Net w -> did w o w' s -> Net w'.
Proof.
  intros L Hno [F1 F2 F3] D. pose proof MIN_pos as HM.
  assert (Hnew : forall ks, Forall min_call ks -> Forall min_call ((w_calls w ++ ks) ++ map fst (w_res w))).
  { intros ks H. rewrite unans_new. apply Forall_app. done. }
  assert (Hcb : forall i k r, nth_error (w_res w) i = Some (k, r) ->
    Forall min_call (w_calls w ++ map fst (drop_nth i (w_res w))) /\ min_call k /\ not_rejected (k, r)).
  { intros i k r H. rewrite (unans_cb _ _ _ _ H) in F2. split_and!; [by apply Forall_inv_tail in F2|by apply Forall_inv in F2|].
    apply nth_error_In in H. rewrite List.Forall_forall in F3. by apply F3. }
  pose proof (fun i => drop_forall _ i _ F3) as Hd.
  assert (Hat : forall c p, w_pv w !! c = Some p -> net_ok p) by (intros c p Hp; exact (F1 c p Hp)).
  destruct D; subst_pools; try (split; cbn; assumption);
    try (split; [exact F1|unfold unanswered; cbn; apply Hnew; repeat constructor; done|exact F3]);
    try (match goal with H : nth_error _ _ = _ |- _ => destruct (Hcb _ _ _ H) as (K1 & K2 & K3) end;
         split; [cbn|exact K1|cbn; apply Hd]; try exact F1).
  - um_clean. by split.
  - split; cbn; [|unfold unanswered; cbn; apply Hnew|exact F3].
    + intros x p. rewrite add_psts_lookup. destruct (w_pv w !! x) as [q|] eqn:E; [|done]. cbn. intros [= <-].
      pose proof (Hat _ _ E) as Hq. destruct (dtos_min x ds) as [Hz|Hz].
      * match goal with H : Forall (deleg_sel_ok _) _ |- _ => eapply Forall_impl; [|exact H] end. intros d (? & _ & _ & ? & _). done.
      * rewrite Hz. unfold net_ok in *. cbn. lia.
      * unfold net_ok in *. cbn. lia.
    + clear. induction ds; constructor; auto. done.
  - split; cbn; [|unfold unanswered; cbn; apply Hnew|exact F3].
    + intros x p. rewrite add_puns_lookup. destruct (w_pv w !! x) as [q|] eqn:E; [|done]. cbn. intros [= <-].
      pose proof (Hat _ _ E) as Hq. destruct (decide (x ∈ map d_addr ds)) as [Hin|Hin].
      * destruct (dtos_one x ds) as (d & Hd1 & Hd2 & ->); [|done|].
        { eapply sublist_nodup; [eassumption|apply L]. }
        match goal with H : Forall (undel_sel_ok _) _ |- _ => rewrite list.Forall_forall in H; destruct (H d Hd1) as (q' & Hq1 & Hq2 & Hq3 & Hq4) end.
        rewrite Hd2 in Hq1. assert (q' = q) as -> by congruence. unfold net_ok in *. cbn. lia.
      * rewrite dtos_none by done. unfold net_ok in *. cbn. lia.
    + match goal with H : Forall (undel_sel_ok _) _ |- _ => clear -H; induction H as [|d ds (p & _ & H & _) _ IH]; constructor; auto end. 
  - split; [cbn|unfold unanswered; cbn; apply Hnew; repeat constructor; done|exact F3].
    apply net_ins; [exact F1|]. left. done.
  - split; cbn; try assumption. apply net_ins; [exact F1|]. unfold net_ok; cbn. by apply (Hat c).
  - split; cbn; try assumption. apply net_ins; [exact F1|]. unfold net_ok; cbn. by apply (Hat c).
  - match goal with H : exec_call _ _ _ = _ |- _ => pose proof H as Hx; apply exec_call_frame in H as [l ->] end.
    split; cbn; [exact F1|unfold unanswered; cbn; rewrite unans_exec by eassumption; exact F2|].
    apply Forall_app. split; [exact F3|]. constructor; [|constructor]. destruct k; try done. destruct r; [|done].
    destruct out as [v|].
    + cbn in Hx. destruct (live_of w c) as [x u]. discriminate Hx.
    + apply Hno. cbn. match goal with H : nth_error _ _ = _ |- _ => by rewrite H end.
  - apply net_ins; [exact F1|]. match goal with H : w_pv w !! _ = _ |- _ => pose proof (Hat _ _ H) as Hq end. unfold net_ok in *; cbn. lia.
  - apply net_ins; [exact F1|]. match goal with H : w_pv w !! _ = _ |- _ => pose proof (Hat _ _ H) as Hq end. cbn in K2. unfold net_ok in *; cbn. lia.
  - apply net_ins; [exact F1|]. match goal with H : w_pv w !! _ = _ |- _ => pose proof (Hat _ _ H) as Hq end. unfold net_ok in *; cbn. lia.
  - destruct r; [done|]. match goal with H : is_done _ = false |- _ => discriminate H end.
  - apply net_ins; [exact F1|]. match goal with H : w_pv w !! _ = _ |- _ => pose proof (Hat _ _ H) as Hq end. unfold net_ok in *; cbn. lia.
  - apply net_ins; [exact F1|]. match goal with H : w_pv w !! _ = _ |- _ => pose proof (Hat _ _ H) as Hq end. cbn in K2. unfold net_ok in *; cbn. lia.
  - by apply map_Forall_delete.
Qed.

Lemma net_step w o : Reachable w -> ~ rejects_delegation w o -> Net w -> Net (fst (step w o)).
Proof.
  intros Hr Hno HN. eapply net_did; [| | |apply step_did].
  - exact (lists w Hr).
  - exact Hno.
  - destruct HN as [H1 H2 H3]. split; [exact H1|exact H2|exact H3].
Qed.

Lemma net_deploy w : Deployed w -> Net w.
Proof.
  intros (owner & acc & fees & rpe & minr & maxsel & maxaddr & unbond & epoch & H). unfold deploy in H. rstep H.
  split; cbn; [apply map_Forall_empty|constructor|constructor].
Qed.

Lemma deployed_reach w : Deployed w -> Reachable w.
Proof. intros (owner & acc & fees & rpe & minr & maxsel & maxaddr & unbond & epoch & H). by eapply reach_deploy. Qed.

Lemma net_run w os :
  Reachable w -> Net w -> along (fun v o => ~ rejects_delegation v o) w os -> Net (run w os) /\ Reachable (run w os).
Proof.
  revert w. induction os as [|o os IH]; intros w Hr HN Ha; [done|]. destruct Ha as [H1 H2]. cbn [run].
  apply IH; [by apply reach_step|by apply net_step|done].
Qed.

Lemma net_history w os :
  Deployed w -> along (fun v o => ~ rejects_delegation v o) w os ->
  forall c p, w_pv (run w os) !! c = Some p -> net_zero_or_one p.
Proof.
  intros Hd Ha c p Hp. destruct (net_run w os (deployed_reach w Hd) (net_deploy w Hd) Ha) as [[H _ _] _]. exact (H c p Hp).
Qed.

(** un-delegation in such a history *)
Lemma undelegate_after_clean w os u o sc :
  Deployed w -> along (fun v o => ~ rejects_delegation v o) w os ->
  let v := run w os in
  u <> SELF -> c_lstok (w_cfg v) = TIssued -> c_active (w_cfg v) = true -> manager_b u v = true ->
  batch_choice o (pfu (w_pool v)) -> c_score (w_cfg v) = Some sc -> distinct_bounds sc ->
  c_maxsel (w_cfg v) < U64 -> c_maxsel (w_cfg v) mod U32 <> 0 -> N.of_nat (length (w_ul v)) < U32 ->
  (exists c p, c ∈ w_ul v /\ w_pv v !! c = Some p /\ p_pun p < p_staked p + p_pst p) ->
  snd (step v (OTx u 0 [] (UnDelegatePending o))) = SOk.
Proof.
  intros Hd Ha v. destruct (net_run w os (deployed_reach w Hd) (net_deploy w Hd) Ha) as [[H _ _] Hr]. fold v in H, Hr.
  intros. eapply undelegate_pending_works; try eassumption. split_and!; try done.
  pose proof (lists v Hr) as L. pose proof (cfgok v Hr) as (_ & _ & HC).
  apply list.Forall_forall. intros c Hc. apply (l_same _ _ _ _ L) in Hc. destruct (l_rec _ _ _ _ L c Hc) as [p Hp].
  exists p. split_and!; [done|exact (H c p Hp)|exact (HC c p Hp)].
Qed.
