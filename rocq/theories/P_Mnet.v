(** P_Mnet.v — properties C117–C120: the contract together with the provider and
    manager mocks of the repository. *)
From Verif Require Import Scenario L_Settle L_Mnet1 L_Mnet2 L_Mnet3 L_Mnet4.

Ltac computed := repeat match goal with |- _ /\ _ => split end; vm_compute; reflexivity.

(** The network of the cases: owner 100, mocks 1000 and 1001 with 50 EGLD each; user 500
    deposits 100 EGLD, rewards of three epochs are claimed, 500 redeems 40 LS tokens and they
    are un-delegated; the second un-delegation is still out. *)
Definition n_start : net := Net w0 ∅ 7.
Definition n_setup : list nact :=
  [NNew 1000 (50 * E); NNew 1001 (50 * E);
   NDo (OTx 100 5 [] RegisterLsToken); NExec 0 true; NDo (OCb 0);
   NDo (OTx 100 5 [] RegisterUnstakeToken); NExec 0 true; NDo (OCb 0);
   NDo (OTx 100 0 [] SetStateActive); NDo (OTx 100 0 [] (SetScoringConfig scfg_default));
   NDo (OTx 100 E [] (Whitelist 1000 77 0 0 10 800)); NExec 0 true; NDo (OCb 0);
   NDo (OTx 100 E [] (Whitelist 1001 78 (3 * E) (500 * E) 20 900)); NExec 0 true; NDo (OCb 0)].
Definition n_stake : list nact :=
  [NDo (OTx 500 (100 * E) [] Delegate); NDo (OTx 100 0 [] (DelegatePending None));
   NExec 0 true; NExec 0 true; NDo (OCb 0); NDo (OCb 0)].
Definition n_rewards : list nact :=
  [NDo (OEpoch 3); NDo (OTx 100 0 [] ClaimRewards); NExec 0 true; NDo (OCb 0); NGift 3; NFund 1000 5].
Definition n_leave : list nact :=
  [NDo (OTx 500 0 [Pay TokLs (40 * E)] UnDelegate); NDo (OTx 100 0 [] (UnDelegatePending None)); NExec 0 true].
Definition n_all : list nact := n_setup ++ n_stake ++ n_rewards ++ n_leave.
Definition n_now : net := nrun n_start n_all.
Definition n_settled : net := nrun n_now (nsettle n_now).

Lemma n_start_Start : Start n_start.
Proof. split; [exact w0_is_deployed|]. intros c m H. cbn in H. by rewrite lookup_empty in H. Qed.

Definition norderly_b (n : net) (x : nact) : bool :=
  match x with NDo o => orderly_b (n_w n) o | _ => true end.
Definition in_turn_b (n : net) (x : nact) : bool := match x with NExec (S _) _ => false | _ => true end.
Fixpoint nalong_b (p : net -> nact -> bool) (n : net) (xs : list nact) : bool :=
  match xs with [] => true | x :: r => p n x && nalong_b p (fst (nstep n x)) r end.

Lemma nalong_sound (p : net -> nact -> bool) (P : net -> nact -> Prop) n xs :
  (forall m x, p m x = true -> P m x) -> nalong_b p n xs = true -> nalong P n xs.
Proof.
  intros H. revert n. induction xs as [|x xs IH]; intros n; [done|]. cbn [nalong_b nalong].
  intros [A B]%andb_true_iff. split; [by apply H|by apply IH].
Qed.
Lemma norderly_sound m x : norderly_b m x = true -> norderly m x.
Proof. destruct x as [o|i b|c v|c|c v|v]; try done. apply orderly_sound. Qed.
Lemma in_turn_sound m x : in_turn_b m x = true -> in_turn m x.
Proof. destruct x as [o|[|i] b|c v|c|c v|v]; try done. intros _ k j k' _ Hj. lia. Qed.
Definition both_b (m : net) (x : nact) : bool := norderly_b m x && in_turn_b m x.
Lemma both_sound m x : both_b m x = true -> norderly m x /\ in_turn m x.
Proof. intros [A B]%andb_true_iff. split; [by apply norderly_sound|by apply in_turn_sound]. Qed.

(** C117. A history of the network is a history of the model: there is a list of actions of
    the model, of which each is what the network shows, with the same world after every step
    and the same status for every action the contract takes part in. Every theorem about
    histories of the model therefore speaks about the contract among the mocks. *)
Theorem C117_a_history : forall n xs, exists os,
  Forall2 seen_as xs os
  /\ (forall k, n_w (nrun n (firstn k xs)) = run (n_w n) (firstn k os))
  /\ (forall k x, nth_error xs k = Some x -> shown x ->
        nth_error (nstatuses n xs) k = nth_error (statuses (n_w n) os) k).
Proof. exact net_history. Qed.
Print Assumptions C117_a_history.

(** Case: the last action is shown as an execution with the mock's answer. *)
Example C117_a_history_case :
  forallb ok_b (nstatuses n_start n_all) = true /\ length n_all = 31%nat
  /\ nth_error n_all 30 = Some (NExec 0 true) /\ shown (NExec 0 true)
  /\ w_calls (n_w (nrun n_start (firstn 30 n_all)))
     = [KUndel 1000 25038217711350872307; KUndel 1001 14831327494128579748]
  /\ n_w n_now = run (n_w (nrun n_start (firstn 30 n_all))) [OExec 0 (Some 0)]
  /\ live_of (n_w n_now) 1000 = (0, 25038217711350872307).
Proof. computed. Qed.

(** C117. What the model says a provider holds for the contract is at every moment what the
    mock's storage says. *)
Theorem C117_books : forall n xs c,
  Start n -> live_of (n_w (nrun n xs)) c = kept_at (nrun n xs) c.
Proof. exact net_books. Qed.
Print Assumptions C117_books.

Example C117_books_case :
  Start n_start /\ kept_at n_now 1000 = (0, 25038217711350872307) /\ kept_at n_now 1001 = (76961782288649127693, 0).
Proof. split; [exact n_start_Start|]. computed. Qed.

(** C117. Every call that is out can be executed, and its reply is then waiting: the model
    forbids no answer that a mock gives. *)
Theorem C117_executes : forall n xs i b k,
  Start n -> let v := nrun n xs in nth_error (w_calls (n_w v)) i = Some k ->
  snd (nstep v (NExec i b)) = SOk
  /\ exists r, w_res (n_w (fst (nstep v (NExec i b)))) = w_res (n_w v) ++ [(k, r)]
     /\ w_calls (n_w (fst (nstep v (NExec i b)))) = drop_nth i (w_calls (n_w v)).
Proof. exact net_executes. Qed.
Print Assumptions C117_executes.

Example C117_executes_case :
  nth_error (w_calls (n_w n_now)) 0 = Some (KUndel 1001 14831327494128579748)
  /\ w_res (n_w (fst (nstep n_now (NExec 0 true))))
     = w_res (n_w n_now) ++ [(KUndel 1001 14831327494128579748, RDone 0)].
Proof. computed. Qed.

(** C118. How each call ends at a mock: a delegation is accepted if there is a mock at the
    address; an un-delegation if it is for more than nothing and at most for the stake; a
    withdrawal if something is un-delegated, its period is over and the mock has the EGLD,
    and then everything un-delegated is paid; a claim is paid by the listed mocks. *)
Theorem C118_outcomes : forall n0 xs i b k,
  Start n0 -> let n := nrun n0 xs in let n' := fst (nstep n (NExec i b)) in
  nth_error (w_calls (n_w n)) i = Some k ->
  exists r, w_res (n_w n') = w_res (n_w n) ++ [(k, r)]
  /\ match k with
     | KDeleg c a | KWhite c a _ =>
         (r = RDone 0 /\ is_Some (n_mocks n !! c) /\ kept_at n' c = (fst (kept_at n c) + a, snd (kept_at n c)))
         \/ (r = RFail /\ n_mocks n !! c = None /\ kept_at n' c = kept_at n c)
     | KUndel c a =>
         (r = RDone 0 /\ 0 < a <= fst (kept_at n c) /\ kept_at n' c = (fst (kept_at n c) - a, snd (kept_at n c) + a))
         \/ (r = RFail /\ (a = 0 \/ fst (kept_at n c) < a) /\ kept_at n' c = kept_at n c)
     | KWithd c =>
         w_epoch (n_w n) + 10 < 2 ^ 64 ->
         let due := exists m, n_mocks n !! c = Some m /\ 0 < m_und m /\ m_uepoch m <= w_epoch (n_w n) /\ m_und m <= m_egld m in
         (due /\ r = RDone (snd (kept_at n c)) /\ kept_at n' c = (fst (kept_at n c), 0))
         \/ (~ due /\ r = RFail /\ kept_at n' c = kept_at n c)
     | KClaim l =>
         match r with RDone v => at_mocks n = at_mocks n' + v | RFail => at_mocks n' = at_mocks n end
         /\ forall c, kept_at n' c = kept_at n c
     | KIssue _ _ _ => r = if b then RDone 0 else RFail
     end.
Proof. exact outcomes. Qed.
Print Assumptions C118_outcomes.

(** Case: the un-delegation from 1001, and a withdrawal from 1000, first too early and then
    after the unbonding period of the mock. *)
Definition n_withdraw (e : N) : net :=
  nrun n_settled [NDo (OEpoch e); NDo (OTx 100 0 [] (WithdrawPending 1000))].
Example C118_outcomes_case :
  kept_at (fst (nstep n_now (NExec 0 true))) 1001 = (62130454794520547945, 14831327494128579748)
  /\ w_calls (n_w (n_withdraw 9)) = [KWithd 1000] /\ w_epoch (n_w (n_withdraw 9)) = 17
  /\ w_res (n_w (fst (nstep (n_withdraw 9) (NExec 0 true)))) = [(KWithd 1000, RFail)]
  /\ w_calls (n_w (n_withdraw 10)) = [KWithd 1000]
  /\ w_res (n_w (fst (nstep (n_withdraw 10) (NExec 0 true)))) = [(KWithd 1000, RDone 25038217711350872307)]
  /\ kept_at (fst (nstep (n_withdraw 10) (NExec 0 true))) 1000 = (0, 0).
Proof. computed. Qed.

(** C118. If the calls to one provider are executed in the order in which they were sent
    and the replies come as [orderly] says, no mock ever refuses a delegation or an
    un-delegation of the contract: it never asks for more than its stake, nor for nothing. *)
Theorem C118_never_refused : forall n xs x,
  Start n -> nalong (fun m y => norderly m y /\ in_turn m y) n xs ->
  In x (w_res (n_w (nrun n xs))) -> ~ refused x.
Proof. exact never_refused. Qed.
Print Assumptions C118_never_refused.

Example C118_never_refused_case :
  Start n_start /\ nalong (fun m y => norderly m y /\ in_turn m y) n_start n_all
  /\ w_res (n_w n_now) = [(KUndel 1000 25038217711350872307, RDone 0)].
Proof.
  split; [exact n_start_Start|]. split; [apply (nalong_sound both_b); [exact both_sound|vm_compute; reflexivity]|].
  vm_compute; reflexivity.
Qed.

(** C118. The order is needed: two un-delegations that are executed before the delegations
    that were sent first are refused, though everything else is as above. *)
Definition n_overtaken : list nact :=
  n_setup ++ [NDo (OTx 500 (100 * E) [] Delegate); NDo (OTx 100 0 [] (DelegatePending None));
   NDo (OTx 500 0 [Pay TokLs (60 * E)] UnDelegate); NDo (OTx 100 0 [] (UnDelegatePending None)); NExec 3 true; NExec 2 true].
Lemma overtaken : exists n xs, Start n /\ nalong norderly n xs /\ forallb ok_b (nstatuses n xs) = true
  /\ exists x, In x (w_res (n_w (nrun n xs))) /\ refused x.
Proof.
  exists n_start, n_overtaken. split; [exact n_start_Start|]. split; [apply (nalong_sound norderly_b); [exact norderly_sound|vm_compute; reflexivity]|].
  split; [vm_compute; reflexivity|].
  exists (KUndel 1001 34961782288649127693, RFail). split; [|done].
  replace (w_res _) with [(KUndel 1001 34961782288649127693, RFail); (KUndel 1000 25038217711350872307, RFail)]; [by left|vm_compute; reflexivity].
Qed.
Theorem C118_order_needed : exists n xs,
  Start n /\ nalong norderly n xs /\ forallb ok_b (nstatuses n xs) = true
  /\ exists x, In x (w_res (n_w (nrun n xs))) /\ refused x.
Proof. exact overtaken. Qed.
Print Assumptions C118_order_needed.

(** The calls were sent in the other order. *)
Example C118_order_needed_case :
  map (fun k => match k with KDeleg c a => (1, c) | KUndel c a => (2, c) | _ => (0, 0) end)
    (w_calls (n_w (nrun n_start (firstn (length n_setup + 4) n_overtaken)))) = [(1, 1000); (1, 1001); (2, 1000); (2, 1001)].
Proof. vm_compute. reflexivity. Qed.

(** C119. EGLD is neither made nor lost in the network: what the contract, the mocks and the
    manager hold or have under way, and what went out to accounts and services outside, is
    what was there at first and what came in. *)
Theorem C119_conserved : forall n xs,
  Start n -> net_egld (nrun n xs) + ntally net_out n xs = net_egld n + ntally net_in n xs.
Proof. exact net_conserves. Qed.
Print Assumptions C119_conserved.

Example C119_conserved_case :
  net_egld n_start = 7 /\ ntally net_in n_start n_all = 202 * E + 18
  /\ ntally net_out n_start n_all = 214619178082191790 /\ net_egld n_now = 201785380821917808235.
Proof. computed. Qed.

(** C119. A mock's balance: what it was given and what it keeps for the contract, without
    the rewards it paid. *)
Theorem C119_mock_balance : forall n xs c,
  Start n ->
  mock_egld (nrun n xs) c + ntally (rewards_paid c) n xs
  = mock_egld n c + ntally (funded c) n xs + fst (kept_at (nrun n xs) c) + snd (kept_at (nrun n xs) c).
Proof. exact mock_balance. Qed.
Print Assumptions C119_mock_balance.

Example C119_mock_balance_case :
  ntally (rewards_paid 1000) n_start n_all = 54878285394741637 /\ ntally (funded 1000) n_start n_all = 50 * E + 5
  /\ mock_egld n_now 1000 = 74983339425956130675.
Proof. computed. Qed.

(** C119. So a mock that was given as much as it paid in rewards has the stake of the
    contract in hand. *)
Theorem C119_covered : forall n xs c,
  Start n -> ntally (rewards_paid c) n xs <= mock_egld n c + ntally (funded c) n xs ->
  fst (kept_at (nrun n xs) c) + snd (kept_at (nrun n xs) c) <= mock_egld (nrun n xs) c.
Proof. exact covered. Qed.
Print Assumptions C119_covered.

Example C119_covered_case :
  ntally (rewards_paid 1000) n_start n_all = 54878285394741637
  /\ mock_egld n_start 1000 + ntally (funded 1000) n_start n_all = 50 * E + 5
  /\ kept_at n_now 1000 = (0, 25038217711350872307) /\ mock_egld n_now 1000 = 74983339425956130675.
Proof. computed. Qed.

(** C119. A mock that was given nothing pays rewards out of the stake and can then be
    unable to pay out what was un-delegated: the withdrawal fails although its epoch has
    come and every step before went well. *)
Theorem C119_can_run_short : exists n xs c,
  Start n /\ nalong (fun m y => norderly m y /\ in_turn m y) n xs /\ Forall (eq SOk) (nstatuses n xs)
  /\ let v := nrun n xs in
     mock_egld v c < snd (kept_at v c)
     /\ (exists m, n_mocks v !! c = Some m /\ m_uepoch m <= w_epoch (n_w v))
     /\ In (KWithd c, RFail) (w_res (n_w v)).
Proof. exact runs_short. Qed.
Print Assumptions C119_can_run_short.

(** C120. Calls and replies under way can be settled: executing the calls at the mocks and
    delivering the replies, oldest first, goes through and leaves nothing under way. *)
Theorem C120_settles : forall n0 xs,
  Start n0 -> nalong norderly n0 xs ->
  let n := nrun n0 xs in let w := n_w n in
  c_fees (w_cfg w) <= 10000 -> Forall no_whitelisting (unanswered w) ->
  Forall (eq SOk) (nstatuses n (nsettle n)) /\ nalong norderly n (nsettle n) /\ nalong in_turn n (nsettle n)
  /\ quiet (n_w (nrun n (nsettle n))).
Proof. exact net_settles. Qed.
Print Assumptions C120_settles.

Example C120_settles_case :
  nalong norderly n_start n_all /\ c_fees (w_cfg (n_w n_now)) = 400
  /\ forallb no_whitelisting_b (unanswered (n_w n_now)) = true
  /\ nsettle n_now = [NExec 0 true; NDo (OCb 0); NDo (OCb 0)]
  /\ kept_at n_settled 1001 = (62130454794520547945, 14831327494128579748).
Proof.
  split; [apply (nalong_sound norderly_b); [exact norderly_sound|vm_compute; reflexivity]|].
  computed.
Qed.

(** C120. Everybody can leave, the mocks giving the answers: from a quiet point, after the
    release epochs, an operator collects from every provider that owes something, one
    deposit covers the queue, and any withdrawals within the tokens held are carried out in
    full. The mocks must have the EGLD that was un-delegated (C119). *)
Theorem C120_everybody_leaves : forall n0 xs m d a e l,
  Start n0 -> nalong norderly n0 xs ->
  let n := nrun n0 xs in let w := n_w n in
  quiet w -> solvent n -> operator m w -> c_usttok (w_cfg w) = TIssued -> d <> SELF ->
  unstake_queue w + ONE_EGLD <= a -> 0 < ls_worth w a -> 10 <= e -> w_epoch w + e + 10 < 2 ^ 64 ->
  Forall (fun x => fst x <> SELF /\ all_due w (w_epoch w + e) (snd x)) l ->
  (forall k u, brought k u l <= ust_of k u w) ->
  let first := NDo (OEpoch e) :: ncollect m n ++ [NDo (OTx d a [] Delegate)] in
  Forall (eq SOk) (nstatuses n (first ++ map NDo (cash_out l)))
  /\ payments (n_w (nrun n first)) l = map (fun x => pay_total (snd x)) l.
Proof. exact all_leave_net. Qed.
Print Assumptions C120_everybody_leaves.

(** C120. The same from any point: what is under way is settled first. *)
Theorem C120_from_anywhere : forall n0 xs m d a e l,
  Start n0 -> nalong norderly n0 xs ->
  let n := nrun n0 xs in let w := n_w n in let v := nrun n (nsettle n) in
  c_fees (w_cfg w) <= 10000 -> Forall no_whitelisting (unanswered w) ->
  solvent v -> operator m w -> c_usttok (w_cfg w) = TIssued -> d <> SELF ->
  unstake_queue (n_w v) + ONE_EGLD <= a -> 0 < ls_worth (n_w v) a -> 10 <= e -> w_epoch w + e + 10 < 2 ^ 64 ->
  Forall (fun x => fst x <> SELF /\ all_due w (w_epoch w + e) (snd x)) l ->
  (forall k u, brought k u l <= ust_of k u w) ->
  let first := nsettle n ++ NDo (OEpoch e) :: ncollect m v ++ [NDo (OTx d a [] Delegate)] in
  Forall (eq SOk) (nstatuses n (first ++ map NDo (cash_out l)))
  /\ payments (n_w (nrun n first)) l = map (fun x => pay_total (snd x)) l.
Proof. exact all_leave_net_anywhere. Qed.
Print Assumptions C120_from_anywhere.

(** Case: one un-delegation is still out; it is settled, both mocks are collected from,
    and user 500, who has 39.87 unstake tokens, withdraws them in two steps. *)
Definition n_claims : list (addr * list pay) :=
  [(500, [Pay (TokUst 1) (30 * E)]); (500, [Pay (TokUst 1) 9869545205479452055])].
Definition n_way_out : list nact :=
  nsettle n_now ++ NDo (OEpoch 10) :: ncollect 100 n_settled ++ [NDo (OTx 9 (2 * E) [] Delegate)].
Definition solvent_b (n : net) : bool := forallb (fun x => m_und (snd x) <=? m_egld (snd x)) (map_to_list (n_mocks n)).
Lemma solvent_sound n : solvent_b n = true -> solvent n.
Proof.
  unfold solvent_b, solvent. rewrite forallb_forall. intros H c m Hm. apply N.leb_le.
  apply (H (c, m)). by apply elem_of_list_In, elem_of_map_to_list.
Qed.
Example C120_case :
  quiet (n_w n_settled) /\ solvent n_settled /\ operator 100 (n_w n_now) /\ c_usttok (w_cfg (n_w n_now)) = TIssued
  /\ unstake_queue (n_w n_settled) = 0 /\ (0 <? ls_worth (n_w n_settled) (2 * E)) = true
  /\ w_epoch (n_w n_now) = 8 /\ release_epoch 1 (n_w n_now) = Some 18
  /\ brought 1 500 n_claims = 39869545205479452055 /\ ust_of 1 500 (n_w n_now) = 39869545205479452055
  /\ length (ncollect 100 n_settled) = 6%nat
  /\ forallb ok_b (nstatuses n_now (n_way_out ++ map NDo (cash_out n_claims))) = true
  /\ payments (n_w (nrun n_now n_way_out)) n_claims = [30 * E; 9869545205479452055]
  /\ ust_of 1 500 (n_w (nrun n_now (n_way_out ++ map NDo (cash_out n_claims)))) = 0.
Proof.
  split; [split; vm_compute; reflexivity|]. split; [apply solvent_sound; vm_compute; reflexivity|].
  split; [split; [done|]; split; [left; vm_compute; reflexivity|]; split; vm_compute; reflexivity|].
  computed.
Qed.
