(** L_Frame.v — what every action leaves alone. *)
From Verif Require Export Spec9 L_Pool L_Acct.

Lemma rec_ins (m m' : gmap N prov) c d p p' {A} (f : prov -> A) :
  m' = <[d := p']> m -> m !! d = Some p -> (c = d -> f p' = f p) -> (f <$> m' !! c) = (f <$> m !! c).
Proof.
  intros -> H Hf. destruct (decide (d = c)) as [->|D].
  - rewrite lookup_insert, H. cbn. by rewrite Hf.
  - by rewrite lookup_insert_ne.
Qed.

Lemma ust_others caller r w w' n u : ust_maybe caller r w w' -> (u =? caller) || (u =? SELF) = false -> ubal w' n u = ubal w n u.
Proof.
  intros H Hu. apply orb_false_iff in Hu as [H1 H2]. apply N.eqb_neq in H1, H2.
  destruct H as [|k w' _ _ H]; [done|]. unfold ubal. destruct H; cbn;
    rewrite amt_credit, !amt_insert, !decide_False by congruence; lia.
Qed.

Lemma in_existsb c l : existsb (N.eqb c) l = false -> c ∉ l.
Proof.
  intros H Hin. apply elem_of_list_In in Hin.
  assert (existsb (N.eqb c) l = true) by (apply existsb_exists; exists c; split; [done|apply N.eqb_refl]). congruence.
Qed.

Lemma dtos_none c ds l : map d_addr ds `sublist_of` l -> c ∉ l -> dtos c ds = 0.
Proof.
  intros Hs Hc. assert (Hn : c ∉ map d_addr ds).
  { intros Hin. apply Hc. eapply elem_of_submseteq; [exact Hin|by apply sublist_submseteq]. }
  clear Hs Hc. induction ds as [|d ds IH]; [done|]. cbn in Hn. apply not_elem_of_cons in Hn as [H1 H2].
  unfold dtos in *. cbn. rewrite IH by done. unfold dto. destruct (N.eqb_spec (d_addr d) c); [congruence|done].
Qed.

Lemma exec_holding k out w r w1 c :
  exec_call k out w = Some (r, w1) -> provider_of k <> Some c -> live_of w1 c = live_of w c.
Proof.
  unfold exec_call. destruct out as [v|]; [|by intros [= <- <-]].
  destruct k as [d a|d a|d|l|d a u|ls u a]; cbn; try (by intros [= <- <-]);
    destruct (live_of w d) as [x y]; try destruct (_ <=? _); intros H; try discriminate H; injection H as <- <-;
    intros Hd; unfold live_of; cbn; by rewrite lookup_insert_ne by congruence.
Qed.

Lemma issue_reply_works ls who a v e :
  callback (KIssue ls who a) RFail (recv a v) = Er e -> False.
Proof.
  cbn. unfold issue_callback. destruct (0 <? a); [|done]. unfold send_egld, take_egld. cbn.
  destruct (a <=? w_egld v + a) eqn:B; [|lia]. done.
Qed.

Lemma ls_others to m w u : (u =? to) = false -> lbal (ls_paid to m w) u = lbal w u.
Proof.
  intros Hu. apply N.eqb_neq in Hu. unfold ls_paid, lbal. cbn. rewrite amt_credit, amt_insert.
  rewrite (decide_False (P := to = u)) by congruence. destruct (decide (SELF = u)) as [<-|]; lia.
Qed.

Lemma ls_moved from to a m L u : (u =? from) || (u =? to) = false ->
  amt_at (credit (<[from := m]> L) to a) u = amt_at L u.
Proof.
  intros Hu. apply orb_false_iff in Hu as [H1 H2]. apply N.eqb_neq in H1, H2.
  rewrite amt_credit, amt_insert, !decide_False by congruence. lia.
Qed.

Lemma wd_others caller pays pot U U' n u :
  wd_post caller pays pot U U' -> (u =? caller) = false -> amt_at U' (n, u) = amt_at U (n, u).
Proof.
  intros (H1 & _ & H3 & _) Hu. apply N.eqb_neq in Hu.
  destruct (decide (u = SELF)) as [->|D]; [apply H1|by apply H3].
Qed.

Lemma psts_keep ds m c {A} (f : prov -> A) :
  (forall p x, f (set_p_pst x p) = f p) -> (f <$> add_psts ds m !! c) = (f <$> m !! c).
Proof. intros Hf. rewrite add_psts_lookup. destruct (m !! c); [|done]. cbn. by rewrite Hf. Qed.

Lemma puns_keep ds m c {A} (f : prov -> A) :
  (forall p x, f (set_p_pun x p) = f p) -> (f <$> add_puns ds m !! c) = (f <$> m !! c).
Proof. intros Hf. rewrite add_puns_lookup. destruct (m !! c); [|done]. cbn. by rewrite Hf. Qed.

Lemma psts_other ds m c : dtos c ds = 0 -> (p_pst <$> add_psts ds m !! c) = (p_pst <$> m !! c).
Proof. intros Hd. rewrite add_psts_lookup, Hd. destruct (m !! c); [|done]. cbn. f_equal. lia. Qed.

Lemma puns_other ds m c : dtos c ds = 0 -> (p_pun <$> add_puns ds m !! c) = (p_pun <$> m !! c).
Proof. intros Hd. rewrite add_puns_lookup, Hd. destruct (m !! c); [|done]. cbn. f_equal. lia. Qed.

Lemma fail_keeps_balance k r v e :
  callback k r (recv (attached k r) v) = Er e -> reply_changes k r Balance = false ->
  w_egld (recv (attached k r) v) = w_egld v.
Proof.
  intros H Hm. destruct k as [d a|d a|d|l|d a u|ls u a], r as [x|]; cbn in Hm; try discriminate Hm;
    try (cbn; lia).
  exfalso. by apply issue_reply_works in H.
Qed.

(** One entry of the records after a replacement. *)
Ltac recs Hm :=
  first
    [ by (first [rewrite lookup_insert_ne by (apply N.eqb_neq in Hm; congruence)
                |rewrite lookup_delete_ne by (apply N.eqb_neq in Hm; congruence)])
    | match goal with H : ?m !! ?d = Some ?q |- (?f <$> <[?d := ?q']> ?m !! ?c) = _ =>
        exact (rec_ins m _ c d q q' f eq_refl H (fun _ => eq_refl)) end
    | apply psts_keep; reflexivity
    | apply puns_keep; reflexivity ].

Ltac parts Hm :=
  lazymatch goal with |- _ /\ _ => split; [recs Hm|parts Hm] | _ => recs Hm end.

Lemma frame_did w o p w' s : did w o w' s -> may_change w o p = false -> same p w w'.
Proof.
  destruct 1;
    try (match goal with Hn : nth_error (w_res _) _ = Some (_, ?r) |- may_change _ (OCb _) _ = false -> _ =>
           unfold may_change; rewrite Hn; try (is_var r; destruct r; try discriminate) end);
    destruct p; intros Hm; try discriminate Hm; try reflexivity; try (split; [|split; [|split]]; reflexivity);
    try (split; [|split]; reflexivity);
    (* unstake tokens *)
    try match goal with
      | H : ust_maybe _ _ _ _ |- same (UstOf _ _) _ _ => rewrite egld_paid_eq in H; exact (ust_others _ _ _ _ _ _ H Hm)
      | H : ust_maybe _ _ _ _ |- _ => um_clean; try reflexivity; try (split; [|split; [|split]]; reflexivity)
      end;
    (* settings *)
    try match goal with |- same _ (?w) (set_cfg (?f (w_cfg ?w)) ?w) =>
      is_var f; match goal with Hm : may_change _ (OTx _ _ _ ?ep) _ = false |- _ =>
        destruct ep; try contradiction; try match goal with H : f = _ /\ _ |- _ => destruct H as [H _] end;
        subst f; try discriminate Hm; reflexivity end
      | |- same _ _ (set_cfg (issue_cfg ?ls _ _) _) => destruct ls; try discriminate Hm; reflexivity
      | |- same _ _ (set_log _ (set_cfg (issue_cfg ?ls _ _) _)) => destruct ls; try discriminate Hm; reflexivity
      end;
    (* calls *)
    try match goal with
      | H : exec_call ?k _ _ = Some _, Hn : nth_error _ _ = Some ?k |- same (Holding _) _ _ =>
          unfold same; cbn [live_of w_live set_res set_calls]; cbn in Hm; rewrite Hn in Hm; apply (exec_holding _ _ _ _ _ _ H);
          destruct (provider_of k); [intros [= ->]; by rewrite N.eqb_refl in Hm|done]
      | H : exec_call _ _ _ = Some _ |- _ =>
          apply exec_call_frame in H as [? ->]; try reflexivity; try (split; [|split; [|split]]; reflexivity); try (split; [|split]; reflexivity)
      end;
    (* records *)
    try match goal with
      | |- same (RAdmin _) _ _ => cbn in Hm |- *; parts Hm
      | |- same (RParams _) _ _ => cbn in Hm |- *; parts Hm
      | |- same (REligible _) _ _ => cbn in Hm |- *; parts Hm
      | |- same (RStaked _) _ _ => cbn in Hm |- *; parts Hm
      | |- same (RUnbonding _) _ _ => cbn in Hm |- *; parts Hm
      | |- same (RStaking _) _ _ => cbn in Hm |- *; parts Hm
      | |- same (RUnstaking _) _ _ => cbn in Hm |- *; parts Hm
      end.
  - exact (ls_others _ _ _ _ Hm).
  - (* the LS tokens redeemed *)
    cbn in Hm |- *. unfold ls_balance, lbal. cbn. apply N.eqb_neq in Hm. rewrite !amt_insert.
    rewrite (decide_False (P := caller = u)) by congruence. by destruct (decide (SELF = u)) as [<-|].
  - exact (wd_others _ _ _ _ _ _ _ H8 Hm).
  - apply psts_other. eapply dtos_none; [eassumption|]. by apply in_existsb.
  - apply puns_other. eapply dtos_none; [eassumption|]. by apply in_existsb.
  - cbn. unfold contract_egld. cbn. lia.
  - cbn. unfold contract_egld. cbn. lia.
  - exact (ls_others _ _ _ _ Hm).
  - exact (fail_keeps_balance _ _ _ _ H0 Hm).
  - exact (fail_keeps_balance _ _ _ _ H0 Hm).
  - exact (ls_others _ _ _ _ Hm).
  - exact (ls_moved _ _ _ _ _ _ Hm).
  - cbn in Hm |- *. unfold ust_of, ubal. cbn. rewrite amt_credit, amt_insert.
    apply andb_false_iff in Hm as [Hm|Hm].
    + apply N.eqb_neq in Hm. rewrite !decide_False by congruence. lia.
    + apply orb_false_iff in Hm as [H1 H2]. apply N.eqb_neq in H1, H2. rewrite !decide_False by congruence. lia.
  - cbn in Hm |- *. unfold live_of. cbn. apply N.eqb_neq in Hm. by rewrite lookup_insert_ne by congruence.
Qed.

Lemma frame_step w o p : may_change w o p = false -> same p w (fst (step w o)).
Proof. intros Hm. exact (frame_did _ _ _ _ _ (step_did w o) Hm). Qed.

(** Deciding [same], for the cases. *)
Global Instance scfg_eq : EqDecision scfg. Proof. solve_decision. Defined.
Global Instance call_eq : EqDecision call. Proof. solve_decision. Defined.
Global Instance reply_eq : EqDecision reply. Proof. solve_decision. Defined.
Global Instance same_dec p w v : Decision (same p w v).
Proof. destruct p; cbn; apply _. Defined.
