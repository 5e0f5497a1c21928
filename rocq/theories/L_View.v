(** L_View.v — what the views about providers report. *)
From Verif Require Export L_Order L_Lost L_Lists L_Donate L_Exit.

Lemma view_staked_ok c w s : view_staked c w = Ok s -> exists p, w_pv w !! c = Some p /\ s = p_staked p.
Proof.
  unfold view_staked, get_prov. destruct (w_pv w !! c) as [p|]; cbn; [|done].
  intros [= <-]. by exists p.
Qed.
Lemma view_unstaked_ok c w s : view_unstaked c w = Ok s -> exists p, w_pv w !! c = Some p /\ s = p_unstaked p.
Proof.
  unfold view_unstaked, get_prov. destruct (w_pv w !! c) as [p|]; cbn; [|done].
  intros [= <-]. by exists p.
Qed.

(** A total over records of which only the listed ones count. *)
Lemma gsum_listed (f : prov -> N) (l : list N) (m : gmap N prov) (vs : list N) :
  NoDup l ->
  (forall c p, m !! c = Some p -> c ∉ l -> f p = 0) ->
  Forall2 (fun c v => exists p, m !! c = Some p /\ v = f p) l vs ->
  sumN vs = gsum (fun _ p => f p) m.
Proof.
  revert m vs. induction l as [|c l IH]; intros m vs Hn Hz Hf; inversion Hf; subst.
  - clear Hf Hn. symmetry.
    enough (H : forall m : gmap N prov, (forall c p, m !! c = Some p -> f p = 0) -> gsum (fun _ p => f p) m = 0).
    { apply H. intros c p Hc. apply (Hz c p Hc). apply not_elem_of_nil. }
    clear. intros m. induction m as [|c p m Hc IH] using map_ind; intros H; [done|].
    rewrite gsum_insert_new by done. rewrite IH.
    + rewrite (H c p); [done|]. apply lookup_insert.
    + intros c' p' H'. apply (H c' p'). rewrite lookup_insert_ne; [done|]. congruence.
  - match goal with H : exists p, m !! c = Some p /\ _ |- _ => destruct H as (p & Hp & ->) end.
    inversion Hn as [|? ? Hc Hn']; subst.
    rewrite (gsum_delete (fun _ p => f p) m c p Hp). cbn [sumN].
    erewrite (IH (delete c m)); [done|done| |].
    + intros c' p' H' Hc'. apply lookup_delete_Some in H' as [Hne H'].
      apply (Hz c' p' H'). rewrite elem_of_cons. intros [->|?]; done.
    + match goal with H : Forall2 _ l ?vs |- _ => revert H Hc end. clear.
      intros H. induction H as [|x y l vs (p & Hp & ->) H IH]; intros Hc; [constructor|].
      rewrite not_elem_of_cons in Hc. destruct Hc as [Hx Hc]. constructor; [|by apply IH].
      exists p. split; [|done]. rewrite lookup_delete_ne; done.
Qed.

Lemma views_answer w c : Reachable w -> c ∈ w_dl w ->
  exists s u, view_staked c w = Ok s /\ view_unstaked c w = Ok u.
Proof.
  intros Hr Hc. destruct (l_rec _ _ _ _ (lists w Hr) c Hc) as [p Hp].
  exists (p_staked p), (p_unstaked p). unfold view_staked, view_unstaked, get_prov. by rewrite Hp.
Qed.

Lemma views_sum w ss us : Reachable w ->
  Forall2 (fun c s => view_staked c w = Ok s) (w_dl w) ss ->
  Forall2 (fun c u => view_unstaked c w = Ok u) (w_dl w) us ->
  sumN ss = staked_total w /\ sumN us = unbonding w.
Proof.
  intros Hr Hs Hu. pose proof (lists w Hr) as L. rewrite (unbonding_is_sum w Hr).
  split; (eapply gsum_listed; [exact (l_dl _ _ _ _ L)| |]).
  - intros c p Hp Hc. by destruct (l_unlisted _ _ _ _ L c p Hp Hc) as (? & _).
  - eapply Forall2_impl; [exact Hs|]. intros c s H. by apply view_staked_ok.
  - intros c p Hp Hc. by destruct (l_unlisted _ _ _ _ L c p Hp Hc) as (_ & ? & _).
  - eapply Forall2_impl; [exact Hu|]. intros c s H. by apply view_unstaked_ok.
Qed.

Lemma views_true w os c :
  Deployed w -> along orderly w os ->
  let v := run w os in
  c ∈ w_dl v -> (forall x, In x (w_res v) -> provider_of (fst x) <> Some c) ->
  view_staked c v = Ok (fst (live_of v c)) /\ view_unstaked c v = Ok (snd (live_of v c)).
Proof.
  intros Hd Ho v Hc Hw. pose proof (ordered_books_settled w os Hd Ho c Hw) as H. fold v in H. rewrite <- H.
  assert (Hr : Reachable v) by (apply reach_run_, deployed_reach, Hd).
  destruct (l_rec _ _ _ _ (lists v Hr) c Hc) as [p Hp].
  unfold view_staked, view_unstaked, get_prov, recorded. by rewrite Hp.
Qed.

Lemma views_reserve w os ss :
  Deployed w ->
  let v := run w os in
  Forall2 (fun c s => view_staked c v = Ok s) (w_dl v) ss -> unanswered v = [] ->
  virtual_reserve v + unstake_queue v + history_sum migrated_pending w os + tally (lost (by_call undel_any)) w os
  = pending_egld v + sumN ss + history_sum migrated_stake w os + tally (lost (by_call deleg_any)) w os.
Proof.
  intros Hd v Hs Hn. pose proof (reserve_backing_lost w os Hd) as H. fold v in H. cbv zeta in H.
  unfold undelegating_total, delegating_total in H. rewrite Hn in H. cbn in H.
  assert (Hr : Reachable v) by (apply reach_run_, deployed_reach, Hd).
  assert (Hu : exists us, Forall2 (fun c u => view_unstaked c v = Ok u) (w_dl v) us).
  { assert (Hall : forall c, c ∈ w_dl v -> exists u, view_unstaked c v = Ok u).
    { intros c Hc. destruct (views_answer v c Hr Hc) as (? & u & _ & Hv). by exists u. }
    revert Hall. generalize (w_dl v). clear. induction l as [|c l IH]; intros Hall; [by exists []|].
    destruct IH as [us Hus]. { intros c' Hc'. apply Hall. by constructor. }
    destruct (Hall c) as [u Hu]. { by constructor. } exists (u :: us). by constructor. }
  destruct Hu as [us Hus]. destruct (views_sum v ss us Hr Hs Hus) as [-> _]. lia.
Qed.

Lemma listed_views_answer w c : Reachable w -> In c (w_dl w) ->
  exists s u, view_staked c w = Ok s /\ view_unstaked c w = Ok u.
Proof. intros Hr Hc. apply views_answer; [done|]. by apply elem_of_list_In. Qed.
Lemma listed_views_true w os c :
  Deployed w -> along orderly w os ->
  let v := run w os in
  In c (w_dl v) -> (forall x, In x (w_res v) -> provider_of (fst x) <> Some c) ->
  view_staked c v = Ok (fst (live_of v c)) /\ view_unstaked c v = Ok (snd (live_of v c)).
Proof. intros Hd Ho v Hc. apply views_true; [done|done|]. by apply elem_of_list_In. Qed.
