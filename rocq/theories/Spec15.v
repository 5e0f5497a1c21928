(** Spec15.v — vocabulary of C117–C120: the contract in a network with the
    repository's mocks. *)
From Verif Require Export Spec3 Spec10 Mnet.

(** The contract has just been deployed; no mock holds anything of it. *)
Definition Start (n : net) : Prop :=
  Deployed (n_w n) /\ forall c m, n_mocks n !! c = Some m -> m_dep m = 0 /\ m_und m = 0.

Fixpoint nstatuses (n : net) (xs : list nact) : list status :=
  match xs with [] => [] | x :: r => snd (nstep n x) :: nstatuses (fst (nstep n x)) r end.
Fixpoint nalong (P : net -> nact -> Prop) (n : net) (xs : list nact) : Prop :=
  match xs with [] => True | x :: r => P n x /\ nalong P (fst (nstep n x)) r end.
Fixpoint ntally (f : net -> nact -> status -> net -> N) (n : net) (xs : list nact) : N :=
  match xs with
  | [] => 0
  | x :: r => f n x (snd (nstep n x)) (fst (nstep n x)) + ntally f (fst (nstep n x)) r
  end.

(** What the mock at [c] keeps for the contract: active stake and un-delegated EGLD. *)
Definition kept_at (n : net) (c : addr) : N * N :=
  match n_mocks n !! c with Some m => (m_dep m, m_und m) | None => (0, 0) end.

(** The action is one of the model that the network can show as [x]: the same action, an
    execution with some outcome, or nothing at all for what happens at the mocks alone. *)
Definition seen_as (x : nact) (o : op) : Prop :=
  match x with
  | NDo (OExec _ _) | NDo (OProvider _ _ _) => o = ODonate 0
  | NDo o' => o = o'
  | NExec i _ => exists out, o = OExec i out
  | _ => o = ODonate 0
  end.

(** What the contract takes part in. *)
Definition shown (x : nact) : Prop :=
  match x with NDo (OExec _ _) | NDo (OProvider _ _ _) => False | NDo _ | NExec _ _ => True | _ => False end.

(** Replies are delivered as [orderly] demands. *)
Definition norderly (n : net) (x : nact) : Prop :=
  match x with NDo o => orderly (n_w n) o | _ => True end.

(** A provider executes the calls it gets in the order in which they were sent. *)
Definition in_turn (n : net) (x : nact) : Prop :=
  match x with
  | NExec i _ =>
      forall k j k', nth_error (w_calls (n_w n)) i = Some k -> (j < i)%nat ->
      nth_error (w_calls (n_w n)) j = Some k' -> provider_of k = None \/ provider_of k' <> provider_of k
  | _ => True
  end.

(** A delegation or an un-delegation that was refused. *)
Definition refused (x : call * reply) : Prop :=
  match x with (KDeleg _ _, RFail) | (KUndel _ _, RFail) => True | _ => False end.

(** EGLD in the hands of the mocks. *)
Definition at_mocks (n : net) : N := gsum (fun _ m => m_egld m) (n_mocks n).
(** All EGLD in the network. *)
Definition net_egld (n : net) : N :=
  contract_egld (n_w n) + at_mocks n + n_mgr n + under_way (n_w n) + on_way_back (n_w n).

(** EGLD coming in from accounts outside and going out to them. *)
Definition net_in (n : net) (x : nact) (s : status) (_ : net) : N :=
  match x, s with
  | NDo (OTx _ a _ _), SOk | NDo (ODonate a), SOk => a
  | NFund _ v, SOk | NNew _ v, SOk | NGift v, SOk => v
  | _, _ => 0
  end.
Definition net_out (n : net) (x : nact) (s : status) (n' : net) : N :=
  sumN (map transferred (w_log (n_w n'))) + sumN (map deposited (w_log (n_w n')))
  + match x, s with
    | NExec i true, SOk => match nth_error (w_calls (n_w n)) i with Some (KIssue _ _ a) => a | _ => 0 end
    | NClaim _, SOk => at_mocks n - at_mocks n'
    | _, _ => 0
    end.

(** EGLD that mock [c] was given by depositEGLD or at its deployment, and EGLD it paid as
    rewards: at a claim its balance falls by what is paid. *)
Definition funded (c : addr) (_ : net) (x : nact) (s : status) (_ : net) : N :=
  match x, s with NFund d v, SOk | NNew d v, SOk => if d =? c then v else 0 | _, _ => 0 end.
Definition mock_egld (n : net) (c : addr) : N := match n_mocks n !! c with Some m => m_egld m | None => 0 end.
Definition rewards_paid (c : addr) (n : net) (x : nact) (s : status) (n' : net) : N :=
  match x with
  | NExec i _ =>
      match nth_error (w_calls (n_w n)) i with Some (KClaim _) => mock_egld n c - mock_egld n' c | _ => 0 end
  | NClaim _ => mock_egld n c - mock_egld n' c
  | _ => 0
  end.

(** The mock has the EGLD that was un-delegated. *)
Definition solvent (n : net) : Prop :=
  forall c m, n_mocks n !! c = Some m -> m_und m <= m_egld m.

(** The operator collects from every listed provider that has something un-delegated. *)
Definition ncollect (m : addr) (n : net) : list nact :=
  flat_map (fun c => if 0 <? snd (kept_at n c)
                     then [NDo (OTx m 0 [] (WithdrawPending c)); NExec 0 true; NDo (OCb 0)] else [])
    (w_dl (n_w n)).

(** The calls that are out are executed, oldest first, and the replies delivered. *)
Definition nsettle (n : net) : list nact :=
  repeat (NExec 0 true) (length (w_calls (n_w n)))
  ++ repeat (NDo (OCb 0)) (length (w_res (n_w n)) + length (w_calls (n_w n))).
