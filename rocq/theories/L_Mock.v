(** L_Mock.v — the provider and reward-manager mocks. *)
From Verif Require Export L_Base Mock Spec.

(** Totals over a history of calls to the mock: EGLD delegated, un-delegations
    accepted (the deposit went down), EGLD returned by withdraw and by claims. *)
Fixpoint mock_run (m : mock) (cs : list (N * mcall)) : mock :=
  match cs with [] => m | c :: r => mock_run (fst (mock_step m c)) r end.
Fixpoint mock_sum (f : mock -> N * mcall -> N) (m : mock) (cs : list (N * mcall)) : N :=
  match cs with [] => 0 | c :: r => f m c + mock_sum f (fst (mock_step m c)) r end.
Definition mock_delegated (m : mock) (c : N * mcall) : N := match snd c with MDelegate v => v | _ => 0 end.
Definition mock_undelegated (m : mock) (c : N * mcall) : N := m_dep m - m_dep (fst (mock_step m c)).
Definition mock_withdrawn (m : mock) (c : N * mcall) : N := match snd c with MWithdraw => snd (mock_step m c) | _ => 0 end.

Lemma mock_undelegate_inv e a m m' :
  mock_undelegate e a m = Ok m' ->
  0 < a <= m_dep m /\ m' = Mock (m_supply m) (m_dep m - a) (m_last m) (m_und m + a) (add64 e MOCK_UNBOND_PERIOD) (m_egld m).
Proof.
  unfold mock_undelegate, require, sub. destruct ((0 <? a) && (a <=? m_dep m)) eqn:B; cbn; [|done].
  destruct (a <=? m_dep m) eqn:B1; [|lia]. cbn. intros [= <-]. split; [lia|done].
Qed.

Lemma mock_withdraw_inv e m m' v :
  mock_withdraw e m = Ok (m', v) ->
  0 < m_uepoch m <= e /\ v = m_und m /\ 0 < v /\ v <= m_egld m /\ v <= m_supply m
  /\ m' = Mock (m_supply m - m_und m) (m_dep m) (m_last m) 0 0 (m_egld m - m_und m).
Proof.
  unfold mock_withdraw, require, sub. destruct (0 <? m_und m) eqn:B; cbn; [|done].
  destruct ((0 <? m_uepoch m) && (m_uepoch m <=? e)) eqn:B1; cbn; [|done].
  destruct (m_und m <=? m_supply m) eqn:B2; cbn; [|done].
  destruct (m_und m <=? m_egld m) eqn:B3; cbn; [|done]. intros [= <- <-]. split_and!; try lia; done.
Qed.

Lemma mock_claim_inv e m m' v :
  mock_claim e m = Ok (m', v) ->
  m_dep m' = m_dep m /\ m_und m' = m_und m /\ m_egld m' + v = m_egld m.
Proof.
  unfold mock_claim. destruct (m_last m <? e); [|intros [= <- <-]; split_and!; try done; lia].
  destruct (0 <? _); [|intros [= <- <-]; split_and!; try done; lia].
  destruct (_ <=? m_egld m) eqn:B; [|done]. intros [= <- <-]. cbn. split_and!; try done. lia.
Qed.

Lemma mock_step_books m c :
  m_dep (fst (mock_step m c)) + m_und (fst (mock_step m c)) + mock_withdrawn m c
    = m_dep m + m_und m + mock_delegated m c
  /\ m_und (fst (mock_step m c)) + mock_withdrawn m c = m_und m + mock_undelegated m c.
Proof.
  destruct c as [e [v|v|a| |]]; unfold mock_withdrawn, mock_delegated, mock_undelegated; cbn.
  - lia.
  - lia.
  - destruct (mock_undelegate e a m) as [m'|] eqn:E; cbn; [|lia]. apply mock_undelegate_inv in E as [H ->]. cbn. lia.
  - destruct (mock_withdraw e m) as [[m' v]|] eqn:E; cbn; [|lia]. apply mock_withdraw_inv in E as (_ & -> & _ & _ & _ & ->). cbn. lia.
  - destruct (mock_claim e m) as [[m' v]|] eqn:E; cbn; [|lia]. apply mock_claim_inv in E as (-> & -> & _). lia.
Qed.

Lemma mock_books m cs :
  let m' := mock_run m cs in
  m_dep m' + m_und m' + mock_sum mock_withdrawn m cs = m_dep m + m_und m + mock_sum mock_delegated m cs
  /\ m_und m' + mock_sum mock_withdrawn m cs = m_und m + mock_sum mock_undelegated m cs.
Proof.
  revert m. induction cs as [|c cs IH]; intros m; cbn; [lia|].
  destruct (IH (fst (mock_step m c))) as [H1 H2]. destruct (mock_step_books m c) as [H3 H4]. cbn in *. lia.
Qed.

Lemma mock_books_init cs :
  let m' := mock_run mock_init cs in
  m_dep m' + m_und m' + mock_sum mock_withdrawn mock_init cs = mock_sum mock_delegated mock_init cs
  /\ m_und m' + mock_sum mock_withdrawn mock_init cs = mock_sum mock_undelegated mock_init cs
  /\ mock_sum mock_withdrawn mock_init cs <= mock_sum mock_undelegated mock_init cs
  /\ mock_sum mock_undelegated mock_init cs <= mock_sum mock_delegated mock_init cs.
Proof. destruct (mock_books mock_init cs) as [H1 H2]. cbn in *. lia. Qed.

(** every successful call to the mock is an outcome the model of providers allows *)
Lemma mock_admissible w c m e mc m' v :
  live_of w c = (m_dep m, m_und m) ->
  match mc with
  | MDelegate a => m' = mock_delegate a m /\ v = 0
  | MUndelegate a => mock_undelegate e a m = Ok m' /\ v = 0
  | MWithdraw => mock_withdraw e m = Ok (m', v)
  | _ => False
  end ->
  exists r w', exec_call (match mc with MDelegate a => KDeleg c a | MUndelegate a => KUndel c a | _ => KWithd c end) (Some v) w
      = Some (r, w') /\ r = RDone v /\ live_of w' c = (m_dep m', m_und m')
      /\ forall d, d <> c -> live_of w' d = live_of w d.
Proof.
  intros Hl H.
  assert (Hset : forall x y w0, live_of (set_live (<[c := (x, y)]> (w_live w0)) w0) c = (x, y)).
  { intros. unfold live_of. cbn. by rewrite lookup_insert. }
  assert (Hne : forall x w0 d, d <> c -> live_of (set_live (<[c := x]> (w_live w0)) w0) d = live_of w0 d).
  { intros. unfold live_of. cbn. by rewrite lookup_insert_ne. }
  destruct mc as [a|a|a| |]; try done; cbn [exec_call]; rewrite Hl.
  - destruct H as [-> ->]. do 2 eexists. split_and!; [reflexivity|done|by rewrite Hset|by apply Hne].
  - destruct H as [H ->]. apply mock_undelegate_inv in H as [Ha ->]. cbn.
    destruct (a <=? m_dep m) eqn:B; [|lia]. do 2 eexists. split_and!; [reflexivity|done|by rewrite Hset|by apply Hne].
  - apply mock_withdraw_inv in H as (_ & -> & _ & _ & _ & ->). cbn.
    destruct (m_und m <=? m_und m) eqn:B; [|lia]. do 2 eexists.
    split_and!; [reflexivity|done|rewrite Hset; f_equal; lia|by apply Hne].
Qed.

(** the reward manager mock *)
Lemma claim_loop_inv e l ms bal t ms' bal' t' :
  claim_loop e l ms bal t = Ok (ms', bal', t') ->
  bal' + t = bal + t' /\ t <= t'
  /\ gsum (fun _ m => m_egld m) ms' + t' = gsum (fun _ m => m_egld m) ms + t
  /\ (forall c, (fun m => (m_dep m, m_und m)) <$> ms' !! c = (fun m => (m_dep m, m_und m)) <$> ms !! c)
  /\ (forall c, c ∉ l -> ms' !! c = ms !! c).
Proof.
  revert ms bal t. induction l as [|a l IH]; intros ms bal t H; cbn [claim_loop] in H.
  - injection H as <- <- <-. split_and!; try done; lia.
  - destruct (ms !! a) as [m|] eqn:E; [|done]. destruct (mock_claim e m) as [[m1 v]|] eqn:E1; [|done]. cbn in H.
    apply IH in H as (H1 & H2 & H3 & H4 & H5). apply mock_claim_inv in E1 as (D1 & D2 & D3).
    split_and!; try lia.
    + pose proof (gsum_insert (fun _ m => m_egld m) ms a m1) as Hg. unfold gat in Hg. rewrite E in Hg. cbn in *. lia.
    + intros c. rewrite H4. destruct (decide (c = a)) as [->|Hc]; [rewrite lookup_insert, E; cbn; congruence|by rewrite lookup_insert_ne].
    + intros c Hc. rewrite not_elem_of_cons in Hc. destruct Hc as [Hc Hc']. rewrite H5 by done. by rewrite lookup_insert_ne.
Qed.

Lemma claim_multiple_inv e l ms bal ms' bal' sent reported :
  claim_multiple e l ms bal = Ok (ms', bal', sent, reported) ->
  sent = reported /\ bal' = bal
  /\ gsum (fun _ m => m_egld m) ms = gsum (fun _ m => m_egld m) ms' + sent
  /\ (forall c, (fun m => (m_dep m, m_und m)) <$> ms' !! c = (fun m => (m_dep m, m_und m)) <$> ms !! c)
  /\ (forall c, c ∉ l -> ms' !! c = ms !! c).
Proof.
  unfold claim_multiple. destruct (claim_loop e l ms bal 0) as [[[ms1 b1] t1]|] eqn:E; [|done]. cbn.
  apply claim_loop_inv in E as (H1 & H2 & H3 & H4 & H5).
  destruct (t1 <=? b1) eqn:B; [|done]. intros [= <- <- <- <-]. split_and!; try done; lia.
Qed.

(** the manager mock always has the EGLD it forwards: it fails only when a claim fails *)
Lemma claim_multiple_pays e l ms bal r :
  claim_loop e l ms bal 0 = Ok r -> exists x, claim_multiple e l ms bal = Ok x.
Proof.
  intros H. unfold claim_multiple. rewrite H. destruct r as [[ms1 b1] t1].
  apply claim_loop_inv in H as (H1 & H2 & _). cbn. destruct (t1 <=? b1) eqn:B; [by eexists|lia].
Qed.
