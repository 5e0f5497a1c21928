(** L_Mnet2.v — no mock ever refuses a delegation or an un-delegation that comes in turn. *)
From Verif Require Import L_Acct L_Books L_Order L_Flow L_Lists L_Frame L_Donate L_Batch.
From Verif Require Export L_Mnet1.

Lemma norderly_ops n xs : nalong norderly n xs -> along orderly (n_w n) (ops_of n xs).
Proof.
  revert n. induction xs as [|x xs IH]; intros n; [done|]. cbn [nalong ops_of along]. intros [Hx H]. split.
  - destruct x as [o|i b|c v|c|c v|v]; cbn [as_op norderly] in *; try done. by destruct o.
  - rewrite <- as_op_step. by apply IH.
Qed.

(** * Calls are appended, replies taken away *)
Definition late_undel (w : world) (l : list call) : Prop :=
  Forall (fun k => match k with KUndel _ a => 0 < a | _ => True end) l
  /\ forall c, sumN (map (undel_amt c) l) = 0
     \/ exists p, w_pv w !! c = Some p /\ sumN (map (undel_amt c) l) + p_pun p <= p_staked p + p_pst p.

Lemma late_none w : late_undel w [].
Proof. split; [constructor|]. intros c. by left. Qed.

Lemma late_other w l : Forall (fun k => match k with KUndel _ _ => False | _ => True end) l -> late_undel w l.
Proof.
  intros H. split.
  - eapply List.Forall_impl; [|exact H]. by intros [].
  - intros c. left. induction H as [|k l Hk _ IH]; [done|]. cbn. rewrite IH. by destruct k.
Qed.

Lemma undel_sum_nodup c (l : list (addr * N)) :
  NoDup (map fst l) -> sumN (map (undel_amt c) (map (fun x => KUndel (fst x) (snd x)) l)) = 0
  \/ exists a, In (c, a) l /\ sumN (map (undel_amt c) (map (fun x => KUndel (fst x) (snd x)) l)) = a.
Proof.
  induction l as [|[d a] l IH]; intros H; [by left|]. cbn in H. apply list.NoDup_cons in H as [Hn H].
  cbn [map fst snd sumN]. unfold undel_amt at 1 3. destruct (N.eqb_spec d c) as [->|E].
  - right. exists a. split; [by left|]. destruct (IH H) as [->|(b & Hb & _)]; [lia|].
    exfalso. apply Hn. apply elem_of_list_In, in_map_iff. by exists (c, b).
  - destruct (IH H) as [->|(b & Hb & ->)]; [left; lia|right]. exists b. split; [by right|lia].
Qed.

Lemma calls_grow w o :
  Reachable w -> match o with OExec _ _ => False | _ => True end ->
  exists l, w_calls (fst (step w o)) = w_calls w ++ l /\ late_undel w l.
Proof.
  intros Hr Ho.
  assert (Hsame : may_change w o Calls = false -> exists l, w_calls (fst (step w o)) = w_calls w ++ l /\ late_undel w l).
  { intros H. exists []. rewrite app_nil_r. split; [exact (frame_step w o Calls H)|apply late_none]. }
  destruct o as [u e ps ep|i out|i|d|f t a|m f t a|a|a|c x y|i]; try done; try (by apply Hsame).
  - destruct (snd (step w (OTx u e ps ep))) as [|er|er|] eqn:Es.
    2: { exists []. rewrite app_nil_r. split; [|apply late_none].
         unfold step in *. destruct (exec_tx u e ps ep (set_log [] w)); done. }
    2: { unfold step in Es. destruct (exec_tx u e ps ep (set_log [] w)); done. }
    2: { unfold step in Es. destruct (exec_tx u e ps ep (set_log [] w)); done. }
    destruct ep; try (by apply Hsame).
    + destruct (delegate_batch_effect w u e ps amount Hr Es) as (l & E & _). exists (map (fun x => KDeleg (fst x) (snd x)) l).
      split; [exact E|]. apply late_other. apply List.Forall_map. by apply List.Forall_forall.
    + destruct (undelegate_batch_effect w u e ps amount Hr Es) as (l & E & _ & _ & _ & Hn & Hl & _).
      exists (map (fun x => KUndel (fst x) (snd x)) l). split; [exact E|]. split.
      * apply List.Forall_map, List.Forall_forall. intros [c a] Hin. destruct (Hl c a Hin) as [Ha _]. cbn. pose proof MIN_pos. lia.
      * intros c. destruct (undel_sum_nodup c l Hn) as [->|(a & Hin & ->)]; [by left|right].
        destruct (Hl c a Hin) as (_ & _ & p & Hp & Hle & _). by exists p.
    + did_of w (OTx u e ps (WithdrawPending c)) Es. eexists. split; [reflexivity|]. apply late_other. by repeat constructor.
    + did_of w (OTx u e ps ClaimRewards) Es. eexists. split; [reflexivity|]. apply late_other. by repeat constructor.
    + did_of w (OTx u e ps (Whitelist c admin total cap nodes apy)) Es. eexists. split; [reflexivity|]. apply late_other. by repeat constructor.
    + did_of w (OTx u e ps RegisterLsToken) Es. eexists. split; [reflexivity|]. apply late_other. by repeat constructor.
    + did_of w (OTx u e ps RegisterUnstakeToken) Es. eexists. split; [reflexivity|]. apply late_other. by repeat constructor.
  - apply Hsame. cbn. destruct (nth_error (w_res w) i) as [[k r]|]; [|done].
    destruct k, r; try done; match goal with b : bool |- _ => by destruct b end.
Qed.

Lemma res_shrink w o x :
  match o with OExec _ _ => False | _ => True end -> In x (w_res (fst (step w o))) -> In x (w_res w).
Proof.
  intros Ho. pose proof (step_did w o) as Hd. revert Ho.
  destruct Hd; intros Ho Hin; try done; try exact Hin;
    try (cbn in Hin; by apply drop_nth_in in Hin).
  all: um_clean; exact Hin.
Qed.

Lemma dl_grow w o c :
  Reachable w -> c ∈ w_dl (fst (step w o)) ->
  c ∈ w_dl w \/ exists i a u v, o = OCb i /\ In (KWhite c a u, RDone v) (w_res w).
Proof.
  intros Hr Hc.
  assert (Hsame : may_change w o StakeList = false -> c ∈ w_dl w).
  { intros H. pose proof (frame_step w o StakeList H) as K. cbn in K. by rewrite K in Hc. }
  destruct o as [u e ps ep|i out|i|d|f t a|m f t a|a|a|d x y|i]; try (left; by apply Hsame).
  - left. destruct ep; try (by apply Hsame).
    destruct (snd (step w (OTx u e ps (DelegatePending amount)))) as [|er|er|] eqn:Es;
      try (unfold step in Es, Hc; destruct (exec_tx u e ps _ (set_log [] w)); done).
    pose proof (lists w Hr) as L. did_of w (OTx u e ps (DelegatePending amount)) Es.
    cbn in Hc. rewrite to_back_in in Hc; [done|]. by apply sublist_addrs.
  - cbn [may_change] in Hsame. destruct (nth_error (w_res w) i) as [[k r]|] eqn:En; [|left; by apply Hsame].
    destruct k as [d a|d a|d|l|d a u|ls u a], r as [|v]; try (left; by apply Hsame); try (destruct ls; left; by apply Hsame).
    pose proof (step_did w (OCb i)) as Hd.
    destruct (decide (c = d)) as [->|Hcd]; [right|left].
    + exists i, a, u, v. split; [done|]. by apply nth_error_In in En.
    + remember (OCb i) as oo eqn:Eo. remember (fst (step w oo)) as w' eqn:Ew. clear Ew. destruct Hd; try discriminate Eo; try exact Hc;
        injection Eo as ->; cbn in H; rewrite En in H; injection H as <- <- <-; try discriminate.
      cbn in Hc. rewrite set_insert_in in Hc. by destruct Hc.
Qed.

(** * The queue of calls of one provider *)
Fixpoint sent_on (c : addr) (l : list call) (s : N) : option N :=
  match l with
  | [] => Some s
  | KDeleg d a :: r => sent_on c r (if d =? c then s + a else s)
  | KUndel d a :: r => if d =? c then (if (0 <? a) && (a <=? s) then sent_on c r (s - a) else None) else sent_on c r s
  | _ :: r => sent_on c r s
  end.

Lemma sent_app c l l' s : sent_on c (l ++ l') s = match sent_on c l s with Some t => sent_on c l' t | None => None end.
Proof.
  revert s. induction l as [|k l IH]; intros s; [done|]. cbn [app sent_on]. destruct k; rewrite ?IH; try done.
  destruct (_ =? c); [|done]. by destruct (_ && _).
Qed.

Lemma sent_mono c l s s' : s <= s' -> is_Some (sent_on c l s) -> is_Some (sent_on c l s').
Proof.
  revert s s'. induction l as [|k l IH]; intros s s' Hs H; [by eexists|]. cbn [sent_on] in *.
  destruct k as [d a|d a|d|q|d a u|ls u a]; try (by apply (IH s)).
  - destruct (d =? c); eapply IH; try exact H; lia.
  - destruct (d =? c); [|by apply (IH s)]. destruct ((0 <? a) && (a <=? s)) eqn:B; [|by destruct H].
    replace ((0 <? a) && (a <=? s')) with true by lia. eapply IH; [|exact H]. lia.
Qed.

Lemma sent_total c l s t : sent_on c l s = Some t -> t + sumN (map (undel_amt c) l) = s + sumN (map (deleg_amt c) l).
Proof.
  revert s. induction l as [|k l IH]; intros s H; [injection H as ->; done|]. cbn [sent_on] in H. cbn [map sumN].
  set (X := sumN (map (undel_amt c) l)) in *; clearbody X. set (Y := sumN (map (deleg_amt c) l)) in *; clearbody Y.
  destruct k as [d a|d a|d|q|d a u|ls u a]; unfold undel_amt, deleg_amt; try (by apply IH in H).
  - apply IH in H. destruct (d =? c); lia.
  - destruct (d =? c); [|apply IH in H; lia]. destruct ((0 <? a) && (a <=? s)) eqn:B; [|done]. apply IH in H. lia.
Qed.

Lemma sent_enough c l s :
  Forall (fun k => match k with KUndel _ a => 0 < a | _ => True end) l -> sumN (map (undel_amt c) l) <= s ->
  is_Some (sent_on c l s).
Proof.
  revert s. induction l as [|k l IH]; intros s HF Hs; [by eexists|]. inversion HF; subst. cbn [sent_on map sumN] in *.
  set (X := sumN (map (undel_amt c) l)) in *; clearbody X.
  destruct k as [d a|d a|d|q|d a u|ls u a]; unfold undel_amt in Hs; try (apply IH; [done|lia]).
  - apply IH; [done|]. destruct (d =? c); lia.
  - destruct (d =? c); [|apply IH; [done|lia]]. replace ((0 <? a) && (a <=? s)) with true by lia. apply IH; [done|lia].
Qed.

(** taking out a call of another provider, or the first of this one *)
Lemma sent_skip c k s r :
  provider_of k <> Some c -> sent_on c (k :: r) s = sent_on c r s.
Proof. destruct k as [d a|d a|d|q|d a u|ls u a]; cbn; try done; intros H; destruct (N.eqb_spec d c); congruence. Qed.

Lemma sent_skip_all c l s r :
  Forall (fun k => provider_of k <> Some c) l -> sent_on c (l ++ r) s = sent_on c r s.
Proof. induction 1 as [|k l Hk _ IH]; [done|]. rewrite <- app_comm_cons, sent_skip; done. Qed.

Lemma sent_drop_other c l i k s :
  nth_error l i = Some k -> provider_of k <> Some c -> sent_on c (drop_nth i l) s = sent_on c l s.
Proof.
  intros Hn Hk. destruct (L_Order.split_nth _ _ _ Hn) as (l1 & l2 & -> & _ & ->). rewrite !sent_app.
  destruct (sent_on c l1 s); [|done]. by rewrite sent_skip.
Qed.

Lemma sent_drop_first c l i k s :
  nth_error l i = Some k ->
  (forall j k', (j < i)%nat -> nth_error l j = Some k' -> provider_of k' <> Some c) ->
  sent_on c l s = sent_on c (k :: drop_nth i l) s.
Proof.
  intros Hn Hj. destruct (L_Order.split_nth _ _ _ Hn) as (l1 & l2 & -> & Hl & ->).
  assert (HF : Forall (fun k => provider_of k <> Some c) l1).
  { apply List.Forall_forall. intros k' Hin. apply In_nth_error in Hin as [j Hin].
    assert (j < i)%nat by (rewrite <- Hl; apply nth_error_Some; congruence).
    apply (Hj j); [done|]. rewrite nth_error_app1; [done|]. lia. }
  rewrite sent_skip_all by done.
  destruct (decide (provider_of k = Some c)) as [D|D].
  - destruct k; cbn [sent_on]; rewrite ?sent_skip_all by done; done.
  - rewrite !sent_skip by done. by rewrite sent_skip_all.
Qed.

(** * The invariant *)
Record Turn (n : net) : Prop := {
  t_listed : forall c, c ∈ w_dl (n_w n) -> is_Some (n_mocks n !! c);
  t_white : forall c a u v, In (KWhite c a u, RDone v) (w_res (n_w n)) -> is_Some (n_mocks n !! c);
  t_none : forall x, In x (w_res (n_w n)) -> ~ refused x;
  t_queue : forall c, is_Some (sent_on c (w_calls (n_w n)) (fst (live_of (n_w n) c)));
}.

Lemma mocks_stay n x c : is_Some (n_mocks n !! c) -> is_Some (n_mocks (fst (nstep n x)) !! c).
Proof.
  intros H.
  assert (HI : forall d m, is_Some (<[d := m]> (n_mocks n) !! c)).
  { intros d m. destruct (decide (d = c)) as [->|E]; [rewrite lookup_insert|rewrite lookup_insert_ne by done]; [by eexists|done]. }
  destruct x as [o|i b|d v|d|d v|v]; cbn [nstep].
  - destruct o; try done; match goal with |- context [step ?a ?b] => by destruct (step a b) end.
  - destruct (nth_error (w_calls (n_w n)) i) as [k|]; [|done].
    assert (HA : is_Some (snd (fst (at_destination (w_epoch (n_w n)) b k (n_mocks n) (n_mgr n))) !! c)).
    { destruct k as [d a|d a|d|q|d a u|ls u a]; cbn [at_destination].
      - destruct (n_mocks n !! d); cbn; [apply HI|done].
      - destruct (n_mocks n !! d); cbn; [|done]. destruct (mock_undelegate _ _ _); cbn; [apply HI|done].
      - destruct (n_mocks n !! d); cbn; [|done]. destruct (mock_withdraw _ _) as [[]|]; cbn; [apply HI|done].
      - destruct (claim_multiple _ _ _ _) as [[[[ms g] v] rep]|] eqn:E; cbn; [|done].
        apply claim_multiple_inv in E as (_ & _ & _ & Hk & _). specialize (Hk c). destruct H as [m H]. rewrite H in Hk. cbn in Hk.
        destruct (ms !! c); [by eexists|done].
      - destruct (n_mocks n !! d); cbn; [apply HI|done].
      - done. }
    destruct (at_destination _ b k _ _) as [[out ms] g]. by destruct (step (n_w n) _).
  - destruct (n_mocks n !! d); cbn; [apply HI|done].
  - destruct (n_mocks n !! d); cbn; [|done]. destruct (mock_claim _ _) as [[]|]; cbn; [apply HI|done].
  - destruct (n_mocks n !! d); cbn; [done|apply HI].
  - done.
Qed.

(** what is known about the contract *)
Lemma queue_room w0 os c p s t :
  Deployed w0 -> along orderly w0 os -> let w := run w0 os in
  w_pv w !! c = Some p -> (forall x, In x (w_res w) -> ~ refused x) ->
  sent_on c (w_calls w) s = Some t -> s = fst (live_of w c) ->
  forall a, a + p_pun p <= p_staked p + p_pst p -> a <= t.
Proof.
  intros Hd Ho w Hp Hnr Hs -> a Ha.
  assert (Hc : clean_history w0 os) by (by apply ordered_clean).
  assert (Hrc : ReachableClean w) by (apply clean_run_reach; [by apply deployed_clean|done]).
  destruct (in_flight_clean w c p Hrc Hp) as [E1 E2]. unfold deleg_in_flight, undel_in_flight, unanswered in E1, E2.
  rewrite map_app, sumN_app in E1, E2. apply sent_total in Hs.
  destruct (ordered_books w0 os Hd Ho c) as [B _]. fold w in B. unfold recorded in B. rewrite Hp in B. cbn [fst] in B.
  unfold undelivered in B.
  assert (X1 : sumN (map (undelegated c) (w_res w)) = sumN (map (undel_amt c) (map fst (w_res w)))).
  { clear -Hnr. induction (w_res w) as [|[k r] l IH]; [done|]. cbn [map sumN fst]. rewrite IH by (intros x Hx; apply Hnr; by right).
    f_equal. specialize (Hnr (k, r) ltac:(by left)). by destruct k, r. }
  assert (X2 : sumN (map (deleg_amt c) (map fst (w_res w))) <= sumN (map (added c) (w_res w))).
  { clear -Hnr. induction (w_res w) as [|[k r] l IH]; [done|]. cbn [map sumN fst].
    assert (deleg_amt c k <= added c (k, r)).
    { specialize (Hnr (k, r) ltac:(by left)). unfold deleg_amt, added. destruct k, r; cbn in Hnr; try tauto; try reflexivity; apply N.le_0_l. }
    assert (sumN (map (deleg_amt c) (map fst l)) <= sumN (map (added c) l)) by (apply IH; intros x Hx; apply Hnr; by right). lia. }
  lia.
Qed.

Lemma turn_step n0 xs x :
  Start n0 -> nalong norderly n0 xs -> norderly (nrun n0 xs) x -> in_turn (nrun n0 xs) x ->
  Turn (nrun n0 xs) -> Turn (fst (nstep (nrun n0 xs) x)).
Proof.
  intros Hs Ho Hx Ht [T1 T2 T3 T4]. set (n := nrun n0 xs) in *. set (w := n_w n) in *.
  assert (HM : Match n) by (apply match_run; by apply start_match).
  assert (Hr : Reachable w) by (by apply net_reach).
  pose proof (lists w Hr) as HL.
  assert (HE : (exists i b, x = NExec i b) \/ ~ exists i b, x = NExec i b).
  { destruct x; try (right; intros (? & ? & ?); discriminate). left. eauto. }
  destruct HE as [(i & b & ->)|Hne].
  - destruct (nth_error (w_calls w) i) as [k|] eqn:En.
    2: { cbn [nstep]. fold w. rewrite En. split; cbn [n_w n_mocks w_dl w_res w_calls set_log fst]; try done. }
    assert (Hms : forall c, is_Some (n_mocks n !! c) -> is_Some (n_mocks (fst (nstep n (NExec i b))) !! c)) by (intros; by apply mocks_stay).
    destruct (exec_world n i b k HM En) as (r & l & ms & g & E1 & _ & Ha & Hk & He). rewrite E1 in Hms |- *. fold w in Ha, Hk, He |- *. cbn [n_mocks fst] in Hms.
    assert (Hin : In k (unanswered w)).
    { unfold unanswered. apply in_or_app. left. by apply nth_error_In in En. }
    assert (Hfly : fly_ok (w_dl w) (w_pv w) k).
    { pose proof (l_fly _ _ _ _ HL) as HF. rewrite List.Forall_forall in HF. by apply HF. }
    assert (Hnr : ~ refused (k, r)).
    { destruct k as [c a|c a|c|q|c a u|ls u a]; try (destruct r; tauto).
      - cbn [fly_ok] in Hfly. destruct (T1 c Hfly) as [m Hm]. cbn [at_destination] in Ha. rewrite Hm in Ha. destruct r; [done|tauto].
      - cbn [fly_ok] in Hfly. destruct (T1 c Hfly) as [m Hm]. cbn [at_destination] in Ha. rewrite Hm in Ha.
        specialize (T4 c). rewrite (sent_drop_first c _ i (KUndel c a)) in T4; [|done|].
        2: { intros j k' Hj Hn. destruct (Ht (KUndel c a) j k' En Hj Hn) as [K|K]; [done|exact K]. }
        cbn [sent_on] in T4. rewrite N.eqb_refl in T4.
        destruct ((0 <? a) && (a <=? fst (live_of w c))) eqn:B; [|by destruct T4].
        unfold w in B. rewrite HM in B. unfold kept_at in B. rewrite Hm in B. cbn in B.
        unfold mock_undelegate in Ha. rewrite B in Ha. cbn [require rbind] in Ha. unfold sub in Ha.
        replace (a <=? m_dep m) with true in Ha by lia. cbn in Ha. destruct r; [done|tauto]. }
    split; cbn [n_w n_mocks w_dl w_res w_calls set_log set_res set_calls set_live] in *.
    + intros c Hc. by apply Hms, T1.
    + intros c a u v Hc. apply in_app_or in Hc as [Hc|[Hc|[]]]; [by apply Hms, (T2 c a u v)|].
      injection Hc as -> ->. cbn [at_destination] in Ha. destruct (n_mocks n !! c) as [m|] eqn:E; [|done].
      apply Hms. by rewrite E.
    + intros y Hy. apply in_app_or in Hy as [Hy|[<-|[]]]; [by apply T3|done].
    + intros c. change (live_of _ c) with (live_of (set_live l w) c).
      destruct (decide (provider_of k = Some c)) as [D|D].
      * specialize (T4 c). rewrite (sent_drop_first c _ i k) in T4; [|done|].
        2: { intros j k' Hj Hn. destruct (Ht k j k' En Hj Hn) as [K|K]; [congruence|congruence]. }
        destruct k as [d a|d a|d|q|d a u|ls u a]; cbn in D; try done; injection D as ->; cbn [sent_on] in T4; rewrite ?N.eqb_refl in T4;
          destruct r as [|v]; cbn [exec_call] in He; try (by exfalso; apply Hnr).
        -- destruct (live_of (set_log [] w) c) as [p q] eqn:El. change (live_of w c = (p, q)) in El. rewrite El in T4. injection He as <- Hl. subst l. rewrite live_insert, N.eqb_refl. exact T4.
        -- destruct (live_of (set_log [] w) c) as [p q] eqn:El. change (live_of w c = (p, q)) in El. rewrite El in T4. cbn [fst] in T4.
           destruct (a <=? p) eqn:B; [|done]. injection He as <- Hl. subst l. rewrite live_insert, N.eqb_refl. cbn [fst].
           destruct ((0 <? a) && true); [exact T4|by destruct T4].
        -- injection He as Hl. subst l. exact T4.
        -- destruct (live_of (set_log [] w) c) as [p q] eqn:El. change (live_of w c = (p, q)) in El. rewrite El in T4. cbn [fst] in T4.
           destruct (v <=? q) eqn:B; [|done]. injection He as Hl. subst l. rewrite live_insert, N.eqb_refl. exact T4.
        -- injection He as Hl. subst l. exact T4.
        -- destruct (live_of (set_log [] w) c) as [p q] eqn:El. change (live_of w c = (p, q)) in El. rewrite El in T4. injection He as <- Hl. subst l. rewrite live_insert, N.eqb_refl. cbn [fst]. eapply sent_mono; [|exact T4]. cbn. lia.
      * rewrite (sent_drop_other c _ i k) by done.
        assert (live_of (set_live l w) c = live_of w c) as ->; [|apply T4].
        pose proof (frame_step w (OExec i (match r with RFail => None | RDone v => Some v end)) (Holding c)) as F. cbn [may_change same] in F. rewrite En in F.
        specialize (F ltac:(destruct (provider_of k) as [d|]; [destruct (N.eqb_spec c d); congruence|done])).
        unfold step in F. cbn [w_calls set_log] in F. rewrite En, He in F. exact F.
  - assert (Hop : match as_op n x with OExec _ _ => False | _ => True end).
    { destruct x as [o|i b|c v|c|c v|v]; try done; [by destruct o|]. exfalso. apply Hne. eauto. }
    assert (Ew : n_w (fst (nstep n x)) = fst (step w (as_op n x))) by apply as_op_step.
    assert (Hlv : forall c, live_of (n_w (fst (nstep n x))) c = live_of w c).
    { intros c. rewrite Ew. apply holding_kept. destruct x as [o|i b|d v|d|d v|v]; try done. by destruct o. }
    split; rewrite ?Ew.
    + intros c Hc. apply mocks_stay. destruct (dl_grow w _ c Hr Hc) as [K|(i & a & u & v & _ & K)]; [by apply T1|by apply (T2 c a u v)].
    + intros c a u v Hc. apply mocks_stay. apply (T2 c a u v). by apply (res_shrink w (as_op n x)).
    + intros y Hy. apply T3. by apply (res_shrink w (as_op n x)).
    + intros c. rewrite <- Ew, Hlv, Ew. destruct (calls_grow w _ Hr Hop) as (l & -> & Hpos & Hl).
      rewrite sent_app. destruct (T4 c) as [t Et]. fold w in Et. rewrite Et. apply sent_enough; [done|].
      destruct (Hl c) as [->|(p & Hp & Hle)]; [lia|].
      pose proof (queue_room (n_w n0) (ops_of n0 xs) c p (fst (live_of w c)) t) as Q. cbn zeta in Q.
      rewrite <- nrun_world in Q. fold n w in Q. apply Q; try done; [apply Hs|by apply norderly_ops].
Qed.

Definition due (n : net) (x : nact) : Prop := norderly n x /\ in_turn n x.

Lemma nalong_impl (P Q : net -> nact -> Prop) n xs : (forall m x, P m x -> Q m x) -> nalong P n xs -> nalong Q n xs.
Proof. intros H. revert n. induction xs as [|x xs IH]; intros n; [done|]. cbn. intros [H1 H2]. auto. Qed.

Lemma turn_run n xs : Start n -> nalong (fun m x => norderly m x /\ in_turn m x) n xs -> Turn (nrun n xs).
Proof.
  intros Hs. induction xs as [|x xs IH] using rev_ind; intros H.
  - destruct Hs as [Hd Hm]. destruct (deploy_shape _ Hd) as (g & e & ow & E). cbn [nrun]. split; rewrite E; cbn; try done.
    intros c Hc. by apply elem_of_nil in Hc.
  - apply nalong_app in H as [H [[H1 H2] _]]. rewrite nrun_app. cbn [nrun].
    apply turn_step; try done; [|by apply IH]. eapply nalong_impl; [|exact H]. cbn. tauto.
Qed.

Lemma never_refused n xs x :
  Start n -> nalong (fun m y => norderly m y /\ in_turn m y) n xs -> In x (w_res (n_w (nrun n xs))) -> ~ refused x.
Proof. intros Hs H. exact (t_none _ (turn_run n xs Hs H) x). Qed.
