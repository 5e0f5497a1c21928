(** Mnet.v — the contract together with the provider and manager mocks of the
    repository: outgoing calls are executed by the mocks instead of having any
    outcome (delegation-mock/src/delegation.rs,
    delegation-manager-mock/src/delegation_manager.rs, set up as in
    liquid-staking/tests/contract_setup/mod.rs). *)
From Verif Require Export Mock.

(** The contract and its accounts, the mocks by address, the EGLD balance of the
    manager mock. *)
Record net := Net { n_w : world; n_mocks : gmap addr mock; n_mgr : N }.

(** What happens in the network:
    - NDo o: any action of World.v but an execution and a change of a provider's stake;
    - NExec i b: the i-th outstanding call is executed at its destination; b decides
      whether the issue of a token succeeds (it is the only call not to a mock);
    - NFund c v: depositEGLD at mock c, delegation-mock/src/delegation.rs:16-23;
    - NClaim c: somebody else claims the rewards of mock c, delegation-mock/src/delegation.rs:71-93
      (the endpoint has no check of the caller);
    - NNew c v: a mock is deployed at a free address and given v EGLD,
      liquid-staking/tests/contract_interactions/mod.rs:19-72;
    - NGift v: EGLD sent to the manager mock.
    Nobody else delegates, un-delegates or withdraws at a mock, which keeps one deposit
    for all callers (delegation-mock/src/delegation.rs:25-69). *)
Inductive nact :=
| NDo (o : op)
| NExec (i : nat) (b : bool)
| NFund (c : addr) (v : N)
| NClaim (c : addr)
| NNew (c : addr) (v : N)
| NGift (v : N).

(** Execution of a call at its destination: value reported (None: failed) and mocks
    after. delegation-mock/src/delegation.rs:25-69,
    delegation-manager-mock/src/delegation_manager.rs:10-27; a call to an address
    without a contract fails. *)
Definition at_destination (epoch : N) (b : bool) (k : call) (ms : gmap addr mock) (mgr : N)
  : option N * gmap addr mock * N :=
  match k with
  | KDeleg c a | KWhite c a _ =>
      match ms !! c with
      | Some m => (Some 0, <[c := mock_delegate a m]> ms, mgr)
      | None => (None, ms, mgr)
      end
  | KUndel c a =>
      match ms !! c with
      | Some m =>
          match mock_undelegate epoch a m with
          | Ok m' => (Some 0, <[c := m']> ms, mgr)
          | Er _ => (None, ms, mgr)
          end
      | None => (None, ms, mgr)
      end
  | KWithd c =>
      match ms !! c with
      | Some m =>
          match mock_withdraw epoch m with
          | Ok (m', v) => (Some v, <[c := m']> ms, mgr)
          | Er _ => (None, ms, mgr)
          end
      | None => (None, ms, mgr)
      end
  | KClaim l =>
      match claim_multiple epoch l ms mgr with
      | Ok (ms', mgr', v, _) => (Some v, ms', mgr')
      | Er _ => (None, ms, mgr)
      end
  | KIssue _ _ _ => (if b then Some 0 else None, ms, mgr)
  end.

(** One step of the network. Steps at a mock alone leave the contract as it is (its
    log of effects is emptied, as by every action of World.v). *)
Definition nstep (n : net) (x : nact) : net * status :=
  let w := n_w n in let still := set_log [] w in
  match x with
  | NDo (OExec _ _) | NDo (OProvider _ _ _) => (Net still (n_mocks n) (n_mgr n), SInvalid)
  | NDo o => let '(w', s) := step w o in (Net w' (n_mocks n) (n_mgr n), s)
  | NExec i b =>
      match nth_error (w_calls w) i with
      | None => (Net still (n_mocks n) (n_mgr n), SInvalid)
      | Some k =>
          let '(out, ms, g) := at_destination (w_epoch w) b k (n_mocks n) (n_mgr n) in
          let '(w', s) := step w (OExec i out) in (Net w' ms g, s)
      end
  | NFund c v =>
      match n_mocks n !! c with
      | Some m => (Net still (<[c := mock_deposit v m]> (n_mocks n)) (n_mgr n), SOk)
      | None => (Net still (n_mocks n) (n_mgr n), SInvalid)
      end
  | NClaim c =>
      match n_mocks n !! c with
      | Some m =>
          match mock_claim (w_epoch w) m with
          | Ok (m', _) => (Net still (<[c := m']> (n_mocks n)) (n_mgr n), SOk)
          | Er e => (Net still (n_mocks n) (n_mgr n), SErr e)
          end
      | None => (Net still (n_mocks n) (n_mgr n), SInvalid)
      end
  | NNew c v =>
      match n_mocks n !! c with
      | Some _ => (Net still (n_mocks n) (n_mgr n), SInvalid)
      | None => (Net still (<[c := mock_deposit v mock_init]> (n_mocks n)) (n_mgr n), SOk)
      end
  | NGift v => (Net still (n_mocks n) (n_mgr n + v), SOk)
  end.

(** Histories of the network. *)
Fixpoint nrun (n : net) (xs : list nact) : net :=
  match xs with [] => n | x :: r => nrun (fst (nstep n x)) r end.
