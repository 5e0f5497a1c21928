(** L_Same.v — one unstake token per pair of redemption and release epoch. *)
From Verif Require Export Spec4 L_User.

Record Same (w : world) : Prop := {
  s_cur : forall n v, w_attr w !! n = Some (w_epoch w, v) -> w_un w !! v = Some n;
  s_inj : forall n m a, w_attr w !! n = Some a -> w_attr w !! m = Some a -> n = m;
}.

Lemma same_deploy owner acc fees rpe minr maxsel maxaddr unbond epoch w :
  deploy owner acc fees rpe minr maxsel maxaddr unbond epoch = Ok w -> Same w.
Proof.
  unfold deploy. intros H. apply rbind_ok in H as [[] [E H]]. apply rbind_ok in H as [g [E1 H]]. rstep H.
  split; cbn; intros *; by rewrite lookup_empty.
Qed.

Lemma same_new w v un' :
  UstInv w -> Same w -> w_un w !! v = None ->
  un' = <[v := w_last w + 1]> (w_un w)
  \/ (exists e u, w_attr w !! w_last w = Some (e, u) /\ e < w_epoch w /\ un' = delete u (<[v := w_last w + 1]> (w_un w))) ->
  (forall n x, <[w_last w + 1 := (w_epoch w, v)]> (w_attr w) !! n = Some (w_epoch w, x) -> un' !! x = Some n)
  /\ forall n m a, <[w_last w + 1 := (w_epoch w, v)]> (w_attr w) !! n = Some a ->
     <[w_last w + 1 := (w_epoch w, v)]> (w_attr w) !! m = Some a -> n = m.
Proof.
  intros [H1 H2 H3 H4 H5] [S1 S2] Hv Hun.
  assert (Hfresh : forall n x, w_attr w !! n = Some (w_epoch w, x) -> x <> v /\ n <> w_last w + 1).
  { intros n x Hn. split; [intros ->; apply S1 in Hn; congruence|]. intros ->. specialize (H3 (w_last w + 1)). rewrite Hn in H3.
    assert (1 <= w_last w + 1 <= w_last w) by (apply H3; by eexists). lia. }
  split.
  - intros n x. destruct (decide (w_last w + 1 = n)) as [<-|Hne].
    + rewrite lookup_insert. intros [= <-]. destruct Hun as [-> | (e & u & He & Hlt & ->)]; [by rewrite lookup_insert|].
      rewrite lookup_delete_ne, lookup_insert; [done|]. intros ->. 
      assert (1 <= w_last w <= w_last w) as Hl by (apply H3; by eexists).
      destruct H2 as (e' & u' & He' & Hu'); [lia|]. rewrite He in He'. injection He' as <- <-. congruence.
    + rewrite lookup_insert_ne by done. intros Hn. pose proof (Hfresh n x Hn) as [Hx _]. apply S1 in Hn as Hn'.
      destruct Hun as [-> | (e & u & He & Hlt & ->)]; [by rewrite lookup_insert_ne by congruence|].
      rewrite lookup_delete_ne, lookup_insert_ne; [done|congruence|]. intros ->.
      assert (1 <= w_last w <= w_last w) as Hl by (apply H3; by eexists).
      destruct H2 as (e' & u' & He' & Hu'); [lia|]. rewrite He in He'. injection He' as <- <-.
      assert (n = w_last w) as -> by congruence. rewrite He in Hn. injection Hn as ->. lia.
  - intros n m a. destruct (decide (w_last w + 1 = n)) as [<-|Hn], (decide (w_last w + 1 = m)) as [<-|Hm]; [done| | |].
    + rewrite lookup_insert, lookup_insert_ne by done. intros [= <-] Ha. by destruct (Hfresh m v Ha) as [Hx _].
    + rewrite lookup_insert, lookup_insert_ne by done. intros Ha [= <-]. by destruct (Hfresh n v Ha) as [Hx _].
    + rewrite !lookup_insert_ne by done. apply S2.
Qed.

Lemma same_did w o w' s : UstInv w -> Same w -> did w o w' s -> Same w'.
Proof.
  intros I S D. destruct D; try (destruct S as [S1 S2]; split; [exact S1|exact S2]).
  - match goal with H : ust_maybe _ _ _ _ |- _ => rename H into Hm end.
    destruct Hm as [_|k w2 _ _ D]; [rewrite egld_paid_eq; destruct S as [S1 S2]; split; [exact S1|exact S2]|].
    rewrite egld_paid_eq in D. destruct D; cbn in *.
    + destruct S as [S1 S2]; split; [exact S1|exact S2].
    + match goal with H : w_un w !! _ = None, H' : w_last w = 0 |- _ =>
        destruct (same_new w _ _ I S H (or_introl eq_refl)) as [K1 K2]; rewrite H' in K1, K2 end.
      split; [exact K1|exact K2].
    + match goal with H : w_un w !! _ = None |- _ => destruct (same_new w _ _ I S H (or_introl eq_refl)) as [K1 K2] end.
      split; [exact K1|exact K2].
    + match goal with H : w_un w !! _ = None, Ha : w_attr w !! _ = _, He : _ < _ |- _ =>
        destruct (same_new w _ _ I S H (or_intror (ex_intro _ _ (ex_intro _ _ (conj Ha (conj He eq_refl)))))) as [K1 K2] end.
      split; [exact K1|exact K2].
  - match goal with H : exec_call _ _ _ = _ |- _ => apply exec_call_frame in H as [l ->] end. destruct S as [S1 S2]; split; [exact S1|exact S2].
  - destruct S as [S1 S2]. split; cbn; [|exact S2]. intros n v Hn. pose proof (u_epoch _ _ _ _ _ I n _ _ Hn) as [K _]. cbn in K.
    destruct (N.eqb_spec d 0) as [->|]; [|lia]. rewrite N.add_0_r in Hn. by apply S1.
Qed.

Lemma same w : Reachable w -> Same w.
Proof.
  intros Hr. cut (UstInv w /\ Same w); [by intros [_ ?]|]. revert w Hr. apply reach_ind.
  - intros. split; [by eapply ust_deploy|by eapply same_deploy].
  - intros v [H1 [H2 H3]]. split; [exact H1|]. split; [exact H2|exact H3].
  - intros v o v' s _ [H1 H2] D. split; [by eapply ust_did|by eapply same_did].
Qed.

Lemma one_token w n m a : Reachable w -> w_attr w !! n = Some a -> w_attr w !! m = Some a -> n = m.
Proof. intros Hr. apply (s_inj _ (same w Hr)). Qed.

(** ** Redemptions of one epoch *)
Definition due (w : world) : N := add64 (w_epoch w) (c_unbond (w_cfg w)).

Lemma due_kept w o w' s n :
  did w o w' s -> same_epoch o -> keeps_period o -> w_un w !! due w = Some n -> due w' = due w /\ w_un w' !! due w = Some n.
Proof.
  intros D He Hp Hn. destruct D; try exact (conj eq_refl Hn).
  - match goal with H : ust_maybe _ _ _ _ |- _ => rename H into Hm end.
    destruct Hm as [_|k w2 _ _ D]; [rewrite egld_paid_eq; exact (conj eq_refl Hn)|].
    rewrite egld_paid_eq in D. unfold due in Hn. destruct D; cbn in *; [exact (conj eq_refl Hn)|congruence|congruence|congruence].
  - destruct ep; try done; try (match goal with H : _ /\ _ |- _ => destruct H as [-> _] end);
      try (match goal with H : f = _ |- _ => subst f end); try exact (conj eq_refl Hn).
  - match goal with H : exec_call _ _ _ = _ |- _ => apply exec_call_frame in H as [l ->] end. exact (conj eq_refl Hn).
  - destruct ls; exact (conj eq_refl Hn).
  - destruct ls; exact (conj eq_refl Hn).
  - cbn in He. subst d. unfold due. cbn. rewrite N.add_0_r. done.
Qed.

Lemma due_kept_run w os n :
  Forall same_epoch os -> Forall keeps_period os -> w_un w !! due w = Some n ->
  due (run w os) = due w /\ w_un (run w os) !! due w = Some n.
Proof.
  intros H1. revert w. induction H1 as [|o os H1 _ IH]; intros w H2 Hn; [done|]. inversion H2 as [|? ? H3 H4]; subst. cbn [run].
  destruct (due_kept (set_log [] w) o _ _ n (step_did w o) H1 H3 Hn) as [K1 K2]. change (due (set_log [] w)) with (due w) in *.
  rewrite <- K1 in K2 |- *. by apply IH.
Qed.

Lemma redeemed_token w u x n v :
  Reachable w -> v <> SELF -> let w' := fst (step w (OTx u 0 [Pay TokLs x] UnDelegate)) in
  ust_of n v w < ust_of n v w' -> w_un w' !! due w = Some n /\ due w' = due w.
Proof.
  intros Hr Hv. cbn zeta. intros Hlt.
  pose proof (step_did w (OTx u 0 [Pay TokLs x] UnDelegate)) as D.
  revert D Hlt. generalize (fst (step w (OTx u 0 [Pay TokLs x] UnDelegate))). generalize (snd (step w (OTx u 0 [Pay TokLs x] UnDelegate))).
  intros s w' D. pose proof (ust w Hr) as I.
  inversion D; subst.
  - unfold ust_of. cbn. lia.
  - match goal with H : ust_maybe _ _ _ _ |- _ => rename H into Hm end.
    destruct Hm as [_|k w2 _ _ Di]; [rewrite egld_paid_eq; unfold ust_of; cbn; lia|].
    rewrite egld_paid_eq in Di. unfold ust_of, due. destruct Di; cbn in *; rewrite amt_credit, !amt_insert; repeat case_decide; simplify_eq; try lia; intros _.
    + done.
    + by rewrite lookup_insert.
    + by rewrite lookup_insert.
    + split; [|done]. rewrite lookup_delete_ne, lookup_insert; [done|]. intros ->.
      destruct (u_last _ _ _ _ _ I) as (e' & u' & He' & Hu'); [cbn; lia|]. cbn in He', Hu'. congruence.
Qed.

Lemma same_token w u x os u' x' n m v v' :
  let w1 := fst (step w (OTx u 0 [Pay TokLs x] UnDelegate)) in
  let w2 := run w1 os in
  let w3 := fst (step w2 (OTx u' 0 [Pay TokLs x'] UnDelegate)) in
  Reachable w -> Forall same_epoch os -> Forall keeps_period os -> v <> SELF -> v' <> SELF ->
  ust_of n v w < ust_of n v w1 -> ust_of m v' w2 < ust_of m v' w3 -> n = m.
Proof.
  cbn zeta. intros Hr He Hp Hv Hv' Hn Hm.
  destruct (redeemed_token _ _ _ _ _ Hr Hv Hn) as [A1 A2].
  set (w1 := fst (step w (OTx u 0 [Pay TokLs x] UnDelegate))) in *.
  assert (Hr1 : Reachable w1) by (by apply reach_step).
  rewrite <- A2 in A1. destruct (due_kept_run w1 os n He Hp A1) as [B1 B2].
  assert (Hr2 : Reachable (run w1 os)) by (clear -Hr1; clearbody w1; revert w1 Hr1; induction os as [|o os IH]; intros w1 Hr1; [done|apply IH; by apply reach_step]).
  destruct (redeemed_token _ _ _ _ _ Hr2 Hv' Hm) as [C1 C2].
  rewrite <- B1 in B2.
  destruct (due_kept (set_log [] (run w1 os)) (OTx u' 0 [Pay TokLs x'] UnDelegate) _ _ n (step_did _ _) I I B2) as [_ E].
  change (due (set_log [] (run w1 os))) with (due (run w1 os)) in E. congruence.
Qed.

