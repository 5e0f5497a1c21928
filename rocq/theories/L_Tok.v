(** L_Tok.v — token life cycle: what is in flight while a token is not issued. *)
From Verif Require Export L_User.

Definition needs_ls (k : call) : bool :=
  match k with KDeleg _ _ | KUndel _ _ | KClaim _ | KWithd _ => true | _ => false end.

Record TokAt (g : cfg) (c : pool) (dl : list N) (last : N) (ks : list call) : Prop := {
  t_ls : sumN (map (is_issue true) ks) <= if decide (c_lstok g = TPending) then 1 else 0;
  t_ust : sumN (map (is_issue false) ks) <= if decide (c_usttok g = TPending) then 1 else 0;
  t_idle : c_lstok g <> TIssued -> dl = [] /\ c = Pool 0 0 0 0 0 0 0 /\ Forall (fun k => needs_ls k = false) ks;
  t_last : c_usttok g <> TIssued -> last = 0;
}.
Definition Tok (w : world) : Prop := TokAt (w_cfg w) (w_pool w) (w_dl w) (w_last w) (unanswered w).

Lemma sumN_perm (f : call -> N) ks ks' : Permutation ks ks' -> sumN (map f ks) = sumN (map f ks').
Proof. induction 1; cbn; lia. Qed.

Lemma tok_perm g c dl l ks ks' : Permutation ks ks' -> TokAt g c dl l ks -> TokAt g c dl l ks'.
Proof.
  intros P [T1 T2 T3 T4]. split.
  - by rewrite <- (sumN_perm _ _ _ P).
  - by rewrite <- (sumN_perm _ _ _ P).
  - intros H. destruct (T3 H) as (? & ? & ?). split_and!; auto. by rewrite <- P.
  - done.
Qed.

Lemma tok_more g c dl l ks ks' :
  Forall (fun k => is_issue true k = 0 /\ is_issue false k = 0) ks' ->
  (c_lstok g = TIssued \/ Forall (fun k => needs_ls k = false) ks') ->
  TokAt g c dl l ks -> TokAt g c dl l (ks' ++ ks).
Proof.
  intros F N [T1 T2 T3 T4].
  assert (sumN (map (is_issue true) ks') = 0 /\ sumN (map (is_issue false) ks') = 0) as [Z1 Z2].
  { clear -F. induction F as [|k r [] _ []]; cbn; lia. }
  split.
  - rewrite map_app, sumN_app. lia.
  - rewrite map_app, sumN_app. lia.
  - intros H. destruct (T3 H) as (? & ? & ?). split_and!; auto. apply Forall_app. split; [|done].
    by destruct N.
  - done.
Qed.

Lemma tok_less g c dl l k ks :
  is_issue true k = 0 -> is_issue false k = 0 -> TokAt g c dl l (k :: ks) -> TokAt g c dl l ks.
Proof.
  intros H1 H2 [T1 T2 T3 T4]. cbn in T1, T2. split.
  - lia.
  - lia.
  - intros H. destruct (T3 H) as (? & ? & F). split_and!; auto. by apply Forall_inv_tail in F.
  - done.
Qed.

Lemma tok_issued g g' c c' dl dl' l l' ks :
  c_lstok g' = c_lstok g -> c_usttok g' = c_usttok g ->
  (c_lstok g = TIssued \/ c' = c /\ dl' = dl) -> (c_usttok g = TIssued \/ l' = l) ->
  TokAt g c dl l ks -> TokAt g' c' dl' l' ks.
Proof.
  intros E1 E2 A B [T1 T2 T3 T4]. split; rewrite ?E1, ?E2.
  - done.
  - done.
  - intros H. destruct (T3 H) as (? & ? & ?). destruct A as [A|[-> ->]]; [done|]. split_and!; auto.
  - intros H. destruct B as [B|B]; [done|]. subst. auto.
Qed.

Lemma tok_deploy owner acc fees rpe minr maxsel maxaddr unbond epoch w :
  deploy owner acc fees rpe minr maxsel maxaddr unbond epoch = Ok w -> Tok w.
Proof.
  unfold deploy. intros H. rstep H. unfold init in *. repeat match goal with E : rbind _ _ = Ok _ |- _ => rstep E end.
  split; cbn; done.
Qed.

Lemma tok_take i k r w :
  nth_error (w_res w) i = Some (k, r) -> Tok w ->
  TokAt (w_cfg w) (w_pool w) (w_dl w) (w_last w) (k :: w_calls w ++ map fst (drop_nth i (w_res w))).
Proof. intros H T. eapply tok_perm; [|exact T]. by apply (unans_cb _ _ r). Qed.

Lemma issue_last caller a u w n w' :
  ust_issue caller a u w n w' -> w_cfg w' = w_cfg w /\ w_pool w' = w_pool w /\ w_dl w' = w_dl w
   /\ w_calls w' = w_calls w /\ w_res w' = w_res w.
Proof. destruct 1; cbn; done. Qed.

Lemma tok_did w o w' s : Tok w -> did w o w' s -> Tok w'.
Proof.
  intros T D.
  assert (Hnew : forall g c dl l ks, 
    Forall (fun k => is_issue true k = 0 /\ is_issue false k = 0) ks ->
    (c_lstok (w_cfg w) = TIssued \/ Forall (fun k => needs_ls k = false) ks) ->
    c_lstok g = c_lstok (w_cfg w) -> c_usttok g = c_usttok (w_cfg w) ->
    (c_lstok (w_cfg w) = TIssued \/ c = w_pool w /\ dl = w_dl w) ->
    (c_usttok (w_cfg w) = TIssued \/ l = w_last w) ->
    TokAt g c dl l ((w_calls w ++ ks) ++ map fst (w_res w))).
  { intros g c dl l ks F N E1 E2 A B. eapply tok_perm; [symmetry; apply unans_new|].
    apply tok_more; [done|by rewrite E1|]. eapply tok_issued; [exact E1|exact E2| | |exact T]; auto. }
  assert (Hcb : forall i k r c dl, nth_error (w_res w) i = Some (k, r) ->
    is_issue true k = 0 -> is_issue false k = 0 ->
    (c_lstok (w_cfg w) = TIssued \/ c = w_pool w /\ dl = w_dl w) ->
    TokAt (w_cfg w) c dl (w_last w) (w_calls w ++ map fst (drop_nth i (w_res w)))).
  { intros i k r c dl Hi K1 K2 A. eapply tok_issued; [reflexivity|reflexivity| | |]; [exact A|by right|].
    eapply tok_less; [exact K1|exact K2|]. by eapply tok_take. }
  destruct D; subst_pools; unfold Tok in *;
    try (eapply tok_issued; [| | | |exact T]; cbn; auto; fail).
  - (* undelegate *)
    match goal with H : ust_maybe _ _ _ _ |- _ => inversion H as [|n w3' Hr Hi Hu]; subst end.
    + rewrite egld_paid_eq. eapply tok_issued; [| | | |exact T]; cbn; auto.
    + rewrite egld_paid_eq in Hu, Hi. destruct (issue_last _ _ _ _ _ _ Hu) as (E1 & E2 & E3 & E4 & E5).
      unfold unanswered. cbn. rewrite E1, E3, E4, E5. cbn in *.
      eapply tok_issued; [| | | |exact T]; cbn; auto.
  - unfold unanswered; cbn. apply Hnew; auto. clear. induction ds; constructor; auto.
  - unfold unanswered; cbn. apply Hnew; auto. clear. induction ds; constructor; auto.
  - unfold unanswered; cbn. apply Hnew; auto; repeat constructor.
  - unfold unanswered; cbn. apply Hnew; auto; repeat constructor.
  - unfold unanswered; cbn. apply Hnew; auto; repeat constructor.
  - (* register LS *)
    unfold unanswered; cbn. eapply tok_perm; [symmetry; apply unans_new|].
    destruct T as [T1 T2 T3 T4]. cbn. split; cbn.
    + rewrite decide_False in T1 by congruence. repeat case_decide; try congruence; lia.
    + done.
    + intros _. destruct T3 as (? & ? & ?); [congruence|]. split_and!; auto.
    + exact T4.
  - unfold unanswered; cbn. eapply tok_perm; [symmetry; apply unans_new|].
    destruct T as [T1 T2 T3 T4]. cbn. split; cbn.
    + done.
    + rewrite decide_False in T2 by congruence. repeat case_decide; try congruence; lia.
    + intros H'. destruct T3 as (? & ? & ?); [done|]. split_and!; auto.
    + intros _. apply T4. congruence.
  - (* owner configuration *)
    assert (c_lstok (f (w_cfg w)) = c_lstok (w_cfg w) /\ c_usttok (f (w_cfg w)) = c_usttok (w_cfg w)) as [E1 E2].
    { match goal with H : match ep with _ => _ end |- _ =>
        clear -H; destruct ep; try (by destruct H); first [rewrite H|destruct H as [-> _]]; done end. }
    eapply tok_issued; [exact E1|exact E2| | |exact T]; cbn; auto.
  - match goal with H : exec_call _ _ _ = _ |- _ => apply exec_call_frame in H as [l ->] end.
    unfold unanswered; cbn. eapply tok_perm; [symmetry; apply unans_exec; eassumption|]. exact T.
  - (* failed callback *)
    destruct k; try (unfold unanswered; cbn; eapply Hcb; [eassumption|done|done|by right]).
    exfalso. match goal with H : callback _ _ _ = Er _ |- _ => revert H end. cbn. unfold issue_callback.
    destruct r as [|v]; cbn; [|done].
    destruct (0 <? amt) eqn:B; [|done]. unfold send_egld, take_egld. cbn.
    destruct (amt <=? w_egld w + amt) eqn:B2; [done|lia].
  - unfold unanswered; cbn; eapply Hcb; [eassumption|done|done|by left].
  - unfold unanswered; cbn; eapply Hcb; [eassumption|done|done|by left].
  - unfold unanswered; cbn; eapply Hcb; [eassumption|done|done|by left].
  - unfold unanswered; cbn; eapply Hcb; [eassumption|done|done|by left].
  - unfold unanswered; cbn; eapply Hcb; [eassumption|done|done|by right].
  - unfold unanswered; cbn; eapply Hcb; [eassumption|done|done|by left].
  - unfold unanswered; cbn; eapply Hcb; [eassumption|done|done|by right].
  - unfold unanswered; cbn; eapply Hcb; [eassumption|done|done|by left].
  - unfold unanswered; cbn; eapply Hcb; [eassumption|done|done|by left].
  - unfold unanswered; cbn; eapply Hcb; [eassumption|done|done|by right].
  - (* issued *)
    pose proof (tok_take _ _ _ _ ltac:(eassumption) T) as [T1 T2 T3 T4]. cbn in T1, T2.
    unfold unanswered; cbn. destruct ls; cbn in *; split; cbn; auto; try (intros K; congruence).
    + repeat case_decide; try congruence; lia.
    + repeat case_decide; try congruence; lia.
    + intros K. destruct (T3 K) as (? & ? & F). split_and!; auto. by apply Forall_inv_tail in F.
  - (* issue failed *)
    pose proof (tok_take _ _ _ _ ltac:(eassumption) T) as [T1 T2 T3 T4]. cbn in T1, T2.
    unfold unanswered; cbn. destruct ls; cbn in *; split; cbn; auto.
    + repeat case_decide; try congruence; lia.
    + intros _. destruct T3 as (? & ? & F).
      { intros K. rewrite K in T1. rewrite decide_False in T1 by done. lia. }
      split_and!; auto. by apply Forall_inv_tail in F.
    + repeat case_decide; try congruence; lia.
    + intros K. destruct (T3 K) as (? & ? & F). split_and!; auto. by apply Forall_inv_tail in F.
    + intros _. apply T4. intros K. rewrite K in T2. rewrite decide_False in T2 by done. lia.
  - (* aborted callback *)
    pose proof (tok_take _ _ _ _ ltac:(eassumption) T) as [T1 T2 T3 T4]. cbn in T1, T2.
    unfold unanswered; cbn. split; cbn; auto; [lia|lia|].
    intros K. destruct (T3 K) as (? & ? & F). split_and!; auto. by apply Forall_inv_tail in F.
Qed.

Lemma tok w : Reachable w -> Tok w.
Proof.
  apply reach_ind.
  - apply tok_deploy.
  - intros v H. exact H.
  - intros v o v' s _. apply tok_did.
Qed.

(** the identifiers are final *)
Lemma ls_final_did w o w' s : Tok w -> did w o w' s -> c_lstok (w_cfg w) = TIssued -> c_lstok (w_cfg w') = TIssued.
Proof.
  intros T D HI. destruct D; subst_pools; try exact HI; try congruence.
  - um_clean. exact HI.
  - match goal with H : match ep with _ => _ end |- _ =>
        clear -H HI; destruct ep; try (by destruct H); first [rewrite H|destruct H as [-> _]]; done end.
  - match goal with H : exec_call _ _ _ = _ |- _ => apply exec_call_frame in H as [l ->] end. exact HI.
  - cbn. by destruct ls.
  - pose proof (tok_take _ _ _ _ ltac:(eassumption) T) as [T1 T2 T3 T4]. cbn in T1, T2. cbn.
    destruct ls; [|exact HI]. rewrite HI in T1. rewrite decide_False in T1 by done. cbn in T1. lia.
Qed.

Lemma ust_final_did w o w' s : Tok w -> did w o w' s -> c_usttok (w_cfg w) = TIssued -> c_usttok (w_cfg w') = TIssued.
Proof.
  intros T D HI. destruct D; subst_pools; try exact HI; try congruence.
  - um_clean. exact HI.
  - match goal with H : match ep with _ => _ end |- _ =>
        clear -H HI; destruct ep; try (by destruct H); first [rewrite H|destruct H as [-> _]]; done end.
  - match goal with H : exec_call _ _ _ = _ |- _ => apply exec_call_frame in H as [l ->] end. exact HI.
  - cbn. by destruct ls.
  - pose proof (tok_take _ _ _ _ ltac:(eassumption) T) as [T1 T2 T3 T4]. cbn in T1, T2. cbn.
    destruct ls; [exact HI|]. rewrite HI in T2. rewrite decide_False in T2 by done. cbn in T2. lia.
Qed.

Lemma tokens_final w os :
  Reachable w ->
  (c_lstok (w_cfg w) = TIssued -> c_lstok (w_cfg (run w os)) = TIssued)
  /\ (c_usttok (w_cfg w) = TIssued -> c_usttok (w_cfg (run w os)) = TIssued).
Proof.
  revert w. induction os as [|o os IH]; intros w Hr; [done|]. cbn [run].
  destruct (IH (fst (step w o)) (reach_step _ o Hr)) as [H1 H2].
  split; intros HI.
  - apply H1. exact (ls_final_did (set_log [] w) o _ _ (tok w Hr) (step_did w o) HI).
  - apply H2. exact (ust_final_did (set_log [] w) o _ _ (tok w Hr) (step_did w o) HI).
Qed.
