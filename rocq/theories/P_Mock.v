(** P_Mock.v — the provider and reward-manager mocks of the repository. *)
From Verif Require Import Scenario L_Mock.

(** C61. Over every history of calls to the provider mock: deposit plus unbonding
    plus withdrawn is what was delegated; no more is withdrawn than was
    un-delegated and no more is un-delegated than was delegated. *)
Theorem C61_mock_books (calls : list (N * mcall)) :
  let m := mock_run mock_init calls in
  let delegated := mock_sum mock_delegated mock_init calls in
  let undelegated := mock_sum mock_undelegated mock_init calls in
  let withdrawn := mock_sum mock_withdrawn mock_init calls in
  m_dep m + m_und m + withdrawn = delegated
  /\ m_und m + withdrawn = undelegated
  /\ withdrawn <= undelegated /\ undelegated <= delegated.
Proof. exact (mock_books_init calls). Qed.
Print Assumptions C61_mock_books.

Definition mock_history : list (N * mcall) :=
  [(1, MDeposit 1000); (1, MDelegate 500); (2, MUndelegate 200); (3, MUndelegate 400); (3, MWithdraw);
   (12, MWithdraw); (20, MClaim); (21, MUndelegate 50)].

Example C61_mock_books_case :
  mock_run mock_init mock_history = Mock 1300 250 20 50 31 1299
  /\ mock_sum mock_undelegated mock_init mock_history = 250
  /\ mock_sum mock_withdrawn mock_init mock_history = 200.
Proof. by vm_compute. Qed.

(** C61. Every successful delegate, un-delegate and withdraw of the mock is an
    outcome that the model of staking providers allows, with the same stake and
    unbonding amounts afterwards, and it touches no other provider. *)
Theorem C61_mock_admissible (w : world) (c epoch v : N) (m m' : mock) (call : mcall)
    (H_same : live_of w c = (m_dep m, m_und m))
    (H_call : match call with
              | MDelegate a => m' = mock_delegate a m /\ v = 0
              | MUndelegate a => mock_undelegate epoch a m = Ok m' /\ v = 0
              | MWithdraw => mock_withdraw epoch m = Ok (m', v)
              | _ => False
              end) :
  exists r w',
    exec_call (match call with MDelegate a => KDeleg c a | MUndelegate a => KUndel c a | _ => KWithd c end)
      (Some v) w = Some (r, w')
    /\ r = RDone v /\ live_of w' c = (m_dep m', m_und m')
    /\ forall d, d <> c -> live_of w' d = live_of w d.
Proof. exact (mock_admissible w c m epoch call m' v H_same H_call). Qed.
Print Assumptions C61_mock_admissible.

Example C61_mock_admissible_case :
  let m := Mock 0 25038217711350872307 0 0 0 0 in
  live_of w_staked 1000 = (m_dep m, m_und m)
  /\ mock_undelegate 9 5 m = Ok (Mock 0 25038217711350872302 0 5 19 0)
  /\ match exec_call (KUndel 1000 5) (Some 0) w_staked with
     | Some (r, w') => live_of w' 1000 = (25038217711350872302, 5)
     | None => False
     end.
Proof. by vm_compute. Qed.

(** C62. claimMulti sends the caller exactly what the listed contracts paid and
    reports the same number; it keeps nothing, and touches no deposit, no
    unbonding amount and no contract that is not listed. *)
Theorem C62_manager_mock_pays (epoch bal : N) (l : list addr) (ms ms' : gmap addr mock) (bal' sent reported : N)
    (H_ok : claim_multiple epoch l ms bal = Ok (ms', bal', sent, reported)) :
  sent = reported /\ bal' = bal
  /\ gsum (fun _ m => m_egld m) ms = gsum (fun _ m => m_egld m) ms' + sent
  /\ (forall c, (fun m => (m_dep m, m_und m)) <$> ms' !! c = (fun m => (m_dep m, m_und m)) <$> ms !! c)
  /\ (forall c, c ∉ l -> ms' !! c = ms !! c).
Proof. exact (claim_multiple_inv epoch l ms bal ms' bal' sent reported H_ok). Qed.
Print Assumptions C62_manager_mock_pays.

Definition two_mocks : gmap addr mock :=
  <[1000 := Mock 5000 36500 0 0 0 90000]> (<[1001 := Mock 5000 73000 4 0 0 80000]> ∅).

Example C62_manager_mock_pays_case :
  match claim_multiple 10 [1000; 1001; 1000] two_mocks 7 with
  | Ok (ms, b, s, r) => b = 7 /\ s = 220 /\ r = 220 /\ m_egld <$> ms !! 1000 = Some 89900 /\ m_egld <$> ms !! 1001 = Some 79880
  | Er _ => False
  end.
Proof. by vm_compute. Qed.

(** C62. It fails only when one of the claims fails. *)
Theorem C62_manager_mock_can_pay (epoch bal : N) (l : list addr) (ms : gmap addr mock) r
    (H_claims : claim_loop epoch l ms bal 0 = Ok r) :
  exists x, claim_multiple epoch l ms bal = Ok x.
Proof. exact (claim_multiple_pays epoch l ms bal r H_claims). Qed.
Print Assumptions C62_manager_mock_can_pay.

Example C62_manager_mock_can_pay_case : exists r, claim_loop 10 [1000; 1001; 1000] two_mocks 7 0 = Ok r.
Proof. eexists. vm_compute. reflexivity. Qed.
