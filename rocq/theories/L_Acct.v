(** L_Acct.v — accounting invariants of every history. *)
From Verif Require Export L_Step.

Global Arguments credit : simpl never.
Global Arguments total_ls : simpl never.
Global Arguments users_ust : simpl never.
Global Arguments lbal : simpl never.
Global Arguments ubal : simpl never.
Global Arguments minted : simpl never.
Global Arguments redeemed : simpl never.
Global Arguments split_of : simpl never.
Global Arguments given_back : simpl never.
Global Arguments amounts : simpl never.
Global Arguments damts : simpl never.
Global Arguments dtos : simpl never.
Global Arguments add_psts : simpl never.
Global Arguments add_puns : simpl never.
Global Arguments to_back : simpl never.
Global Arguments set_insert : simpl never.
Global Arguments set_remove : simpl never.
Global Arguments move_to_back : simpl never.
Global Arguments fee_of : simpl never.
Global Arguments gsum : simpl never.
Global Arguments drop_nth : simpl never.
Global Arguments add64 : simpl never.

Lemma set_log_id w : w_log w = [] -> set_log [] w = w.
Proof. destruct w; cbn. by intros ->. Qed.

Lemma reach_ind (I : world -> Prop) :
  (forall owner acc fees rpe minr maxsel maxaddr unbond epoch w,
     deploy owner acc fees rpe minr maxsel maxaddr unbond epoch = Ok w -> I w) ->
  (forall w, I w -> I (set_log [] w)) ->
  (forall w o w' s, w_log w = [] -> I w -> did w o w' s -> I w') ->
  forall w, Reachable w -> I w.
Proof.
  intros H1 H2 H3 w. induction 1 as [|w o Hr IH]; [eauto|].
  eapply H3; [| |apply step_did]; [done|]. by apply H2.
Qed.

Lemma egld_paid_eq to a w :
  egld_paid to a w = set_log (w_log w ++ (if 0 <? a then [XEgld to a] else [])) (set_egld (w_egld w - a) w).
Proof.
  unfold egld_paid. destruct (0 <? a) eqn:B; [done|].
  rewrite app_nil_r. replace (w_egld w - a) with (w_egld w) by lia. by destruct w.
Qed.

Lemma ust_issue_frame caller a u w n w' :
  ust_issue caller a u w n w' ->
  exists un ust at_ la, w' = set_log (w_log w ++ [XUst caller n a])
    (set_un un (set_ust ust (set_attr at_ (set_last la w)))).
Proof.
  destruct 1.
  - exists (w_un w), (credit (<[(n, SELF) := ubal w n SELF]> (w_ust w)) (n, caller) a), (w_attr w), (w_last w).
    destruct w; reflexivity.
  - do 4 eexists. reflexivity.
  - do 4 eexists. reflexivity.
  - do 4 eexists. reflexivity.
Qed.

Lemma ust_maybe_frame caller r w w' :
  ust_maybe caller r w w' ->
  exists un ust at_ la lg, w' = set_log lg (set_un un (set_ust ust (set_attr at_ (set_last la w)))).
Proof.
  destruct 1 as [Hr|n w' Hr Ht Hi].
  - exists (w_un w), (w_ust w), (w_attr w), (w_last w), (w_log w). destruct w; reflexivity.
  - apply ust_issue_frame in Hi as (a & b & c & d & ->). by eexists a, b, c, d, _.
Qed.

Ltac um_clean :=
  match goal with H : ust_maybe _ _ _ _ |- _ =>
    rewrite egld_paid_eq in H; apply ust_maybe_frame in H as (? & ? & ? & ? & ? & ->) end.

Lemma exec_call_frame k out w r w1 :
  exec_call k out w = Some (r, w1) -> exists l, w1 = set_live l w.
Proof.
  unfold exec_call. destruct out as [v|].
  - destruct k; try destruct (live_of w c) as [x u]; try (destruct (_ <=? _)); try discriminate;
      intros [= <- <-]; try (eexists; reflexivity); exists (w_live w); by destruct w.
  - intros [= <- <-]. exists (w_live w). by destruct w.
Qed.

Lemma total_paid to m v (L : gmap N N) :
  v = amt_at L SELF -> total_ls (credit (<[SELF := v]> L) to m) = total_ls L + m.
Proof.
  intros ->. unfold credit, total_ls.
  pose proof (gsum_all L SELF (amt_at L SELF)).
  pose proof (gsum_all (<[SELF := amt_at L SELF]> L) to
                (amt_at (<[SELF := amt_at L SELF]> L) to + m)). lia.
Qed.

Lemma total_burnt caller x w :
  caller <> SELF -> x <= lbal w caller ->
  total_ls (<[SELF := lbal w SELF]> (<[caller := lbal w caller - x]> (w_ls w))) + x = total_ls (w_ls w).
Proof.
  intros Hc Hx. unfold total_ls, lbal in *.
  pose proof (gsum_all (w_ls w) caller (amt_at (w_ls w) caller - x)).
  pose proof (gsum_all (<[caller := amt_at (w_ls w) caller - x]> (w_ls w)) SELF (amt_at (w_ls w) SELF)).
  rewrite amt_insert, decide_False in H0 by done. lia.
Qed.

Lemma minted_le a c : supply c <= reserve c -> minted a c <= a.
Proof.
  intros H. unfold minted. destruct (0 <? reserve c) eqn:B; [|lia].
  apply N.div_le_upper_bound; [lia|]. nia.
Qed.

Lemma redeem_keeps x c :
  supply c <= reserve c -> 0 < supply c -> x <= supply c ->
  supply c - x <= reserve c - redeemed x c.
Proof.
  intros H Hs Hx. unfold redeemed.
  pose proof (N.mul_div_le (x * reserve c) (supply c)) as Hd.
  set (e := x * reserve c / supply c) in *. assert (Hd' : supply c * e <= x * reserve c) by (apply Hd; lia).
  clear Hd. assert (e <= reserve c) by nia.
  assert (supply c * (supply c - x) <= supply c * (reserve c - e)) by nia. nia.
Qed.

(** * Solvency, LS supply, price at least one, unbonding total *)
Record Acct (w : world) : Prop := {
  a_egld : pend (w_pool w) + withdrawn (w_pool w) + fees_res (w_pool w) <= w_egld w;
  a_supply : total_ls (w_ls w) = supply (w_pool w);
  a_price : supply (w_pool w) <= reserve (w_pool w);
}.

Lemma acct_deploy owner acc fees rpe minr maxsel maxaddr unbond epoch w :
  deploy owner acc fees rpe minr maxsel maxaddr unbond epoch = Ok w -> Acct w.
Proof.
  unfold deploy. intros H. apply rbind_ok in H as [[] [E H]]. apply rbind_ok in H as [g [E1 H]]. rstep H.
  split; cbn; try lia. unfold total_ls. apply gsum_empty.
Qed.

Lemma acct_did w o w' s : Acct w -> did w o w' s -> Acct w'.
Proof.
  intros [H1 H2 H3] D. destruct D.
  - (* none *) done.
  - (* delegate *)
    pose proof (split_facts (pfu (w_pool w)) a) as Hs. cbn zeta in Hs. destruct Hs as (Hs1 & Hs2 & _).
    pose proof (minted_le a (w_pool w) H3).
    split; cbn; fold (minted a c); subst c r.
    + lia.
    + rewrite total_paid by done. change (minted a _) with (minted a (w_pool w)). lia.
    + change (minted a _) with (minted a (w_pool w)). lia.
  - (* unDelegate *)
    pose proof (split_facts (pend (w_pool w)) (redeemed x (w_pool w))) as Hs. cbn zeta in Hs. destruct Hs as (Hs1 & Hs2 & _).
    pose proof (total_burnt caller x w) as Hb.
    um_clean.
    subst c e i r. split; cbn.
    + lia.
    + lia.
    + apply redeem_keeps; [done|lia|done].
  - (* withdraw *)
    split; cbn; subst c c' s; cbn; lia.
  - subst c c'. split; cbn; lia.
  - subst c c'. split; cbn; lia.
  - split; cbn; lia.
  - split; cbn; lia.
  - subst c. split; cbn; lia.
  - split; cbn; lia.
  - split; cbn; lia.
  - split; cbn; lia.
  - split; cbn; lia.
  - split; cbn; lia.
  - split; cbn; lia.
  - split; cbn; lia.
  - (* migrate *) subst c. pose proof (minted_le a (w_pool w) H3).
    split; cbn; [lia|rewrite total_paid by done; lia|lia].
  - subst c. split; cbn; lia.
  - subst c. split; cbn; lia.
  - (* exec *)
    match goal with H : exec_call _ _ _ = _ |- _ => apply exec_call_frame in H as [l ->] end.
    split; cbn; lia.
  - split; cbn; lia.
  - split; cbn; lia.
  - split; cbn; lia.
  - split; cbn; lia.
  - split; cbn; lia.
  - split; cbn; lia.
  - split; cbn; lia.
  - split; cbn; lia.
  - split; cbn; lia.
  - (* whitelist callback *)
    pose proof (minted_le a (w_pool w) H3).
    split; cbn; [lia| |lia].
    rewrite total_paid by done. lia.
  - split; cbn; lia.
  - split; cbn; lia.
  - split; cbn; lia.
  - split; cbn; lia.
  - (* transfer *) split; cbn; try lia. unfold lbal in *. rewrite total_move by done. done.
  - split; cbn; lia.
  - split; cbn; lia.
  - split; cbn; lia.
  - split; cbn; lia.
  - split; cbn; lia.
Qed.

Lemma acct w : Reachable w -> Acct w.
Proof.
  apply reach_ind.
  - apply acct_deploy.
  - intros v [? ? ?]. by split.
  - intros v o v' s _. apply acct_did.
Qed.

Lemma price_at_least_one w :
  Reachable w ->
  ls_supply w <= virtual_reserve w
  /\ (forall a, 0 < amt_at (w_ls w) a -> 0 < virtual_reserve w).
Proof.
  intros H. destruct (acct w H) as [_ H2 H3]. split; [exact H3|].
  intros a Ha. unfold virtual_reserve. pose proof (gsum_all (w_ls w) a 0).
  unfold total_ls in H2. lia.
Qed.
