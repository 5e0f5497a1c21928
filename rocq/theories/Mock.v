(** Mock.v — the provider and reward-manager mocks of the repository
    (delegation-mock/src/delegation.rs,
     delegation-manager-mock/src/delegation_manager.rs). *)
From Verif Require Export World.

(** Storage of the delegation mock, delegation-mock/src/delegation.rs:95-108,
    and its EGLD balance. One address deposits (addressDeposit is a single
    value): the liquid staking contract. *)
Record mock := Mock {
  m_supply : N;   (* egldTokenSupply *)
  m_dep : N;      (* addressDeposit *)
  m_last : N;     (* addressLastClaim *)
  m_und : N;      (* addressUndelegateAmount *)
  m_uepoch : N;   (* addressUndelegateEpoch *)
  m_egld : N      (* EGLD balance of the mock *)
}.

(** delegation-mock/src/delegation.rs:6-9 *)
Definition MOCK_MAX_PERCENTAGE : N := 100000.
Definition MOCK_APY : N := 10000.
Definition MOCK_EPOCHS_IN_YEAR : N := 365.
Definition MOCK_UNBOND_PERIOD : N := 10.

(** depositEGLD, delegation-mock/src/delegation.rs:16-23 (owner check left out:
    the caller is the owner) *)
Definition mock_deposit (v : N) (m : mock) : mock :=
  Mock (m_supply m + v) (m_dep m) (m_last m) (m_und m) (m_uepoch m) (m_egld m + v).

(** delegate, delegation-mock/src/delegation.rs:25-33 *)
Definition mock_delegate (v : N) (m : mock) : mock :=
  Mock (m_supply m + v) (m_dep m + v) (m_last m) (m_und m) (m_uepoch m) (m_egld m + v).

(** unDelegate, delegation-mock/src/delegation.rs:35-49 *)
Definition mock_undelegate (epoch a : N) (m : mock) : res mock :=
  let* _ := require ((0 <? a) && (a <=? m_dep m)) EInvalid in
  let* d := sub (m_dep m) a in
  Ok (Mock (m_supply m) d (m_last m) (m_und m + a) (add64 epoch MOCK_UNBOND_PERIOD) (m_egld m)).

(** withdraw, delegation-mock/src/delegation.rs:51-69: mock after, EGLD sent *)
Definition mock_withdraw (epoch : N) (m : mock) : res (mock * N) :=
  let* _ := require (0 <? m_und m) EInvalid in
  let* _ := require ((0 <? m_uepoch m) && (m_uepoch m <=? epoch)) EInvalid in
  let* s := sub (m_supply m) (m_und m) in
  let* b := if m_und m <=? m_egld m then Ok (m_egld m - m_und m) else Er EFunds in
  Ok (Mock s (m_dep m) (m_last m) 0 0 b, m_und m).

(** claimRewards, delegation-mock/src/delegation.rs:71-93 *)
Definition mock_claim (epoch : N) (m : mock) : res (mock * N) :=
  if m_last m <? epoch then
    let rewards := m_dep m * MOCK_APY / MOCK_MAX_PERCENTAGE * (epoch - m_last m)
                   / MOCK_EPOCHS_IN_YEAR in
    if 0 <? rewards then
      if rewards <=? m_egld m then
        Ok (Mock (m_supply m) (m_dep m) epoch (m_und m) (m_uepoch m) (m_egld m - rewards), rewards)
      else Er EFunds
    else Ok (m, 0)
  else Ok (m, 0).

(** Calls to the mock. *)
Inductive mcall := MDeposit (v : N) | MDelegate (v : N) | MUndelegate (a : N) | MWithdraw | MClaim.

(** One call to the mock at a given epoch; (mock, EGLD sent to the caller);
    an aborted call leaves it unchanged. *)
Definition mock_step (m : mock) (ec : N * mcall) : mock * N :=
  let '(epoch, c) := ec in
  match c with
  | MDeposit v => (mock_deposit v m, 0)
  | MDelegate v => (mock_delegate v m, 0)
  | MUndelegate a => match mock_undelegate epoch a m with Ok m' => (m', 0) | Er _ => (m, 0) end
  | MWithdraw => match mock_withdraw epoch m with Ok r => r | Er _ => (m, 0) end
  | MClaim => match mock_claim epoch m with Ok r => r | Er _ => (m, 0) end
  end.

(** Fresh mock, delegation-mock/src/delegation.rs:13-14 *)
Definition mock_init : mock := Mock 0 0 0 0 0 0.

(** claimMulti of the manager mock,
    delegation-manager-mock/src/delegation_manager.rs:10-27: each synchronous
    claimRewards must succeed; the back transfers are added up, sent to the
    caller and returned. Result: mocks, EGLD balance of the manager, EGLD sent
    to the caller, reported value. *)
Fixpoint claim_loop (epoch : N) (l : list addr) (ms : gmap addr mock) (bal total : N)
  : res (gmap addr mock * N * N) :=
  match l with
  | [] => Ok (ms, bal, total)
  | a :: r =>
      match ms !! a with
      | None => Er ECalleeFailed
      | Some m =>
          let* '(m', v) := mock_claim epoch m in
          claim_loop epoch r (<[a := m']> ms) (bal + v) (total + v)
      end
  end.

(** delegation-manager-mock/src/delegation_manager.rs:10-27 *)
Definition claim_multiple (epoch : N) (l : list addr) (ms : gmap addr mock) (bal : N)
  : res (gmap addr mock * N * N * N) :=
  let* '(ms', bal', total) := claim_loop epoch l ms bal 0 in
  if total <=? bal' then Ok (ms', bal' - total, total, total) else Er EFunds.
