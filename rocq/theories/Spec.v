(** Spec.v — vocabulary of the property statements. Nothing here refers to the
    helpers of the contract model; only to the observable parts of a world
    (storage views, balances, outstanding calls, actions and their status). *)
From Verif Require Export World.

(** Sum of a list of numbers. *)
Fixpoint sumN (l : list N) : N := match l with [] => 0 | x :: r => x + sumN r end.

(** Sum of [f key value] over all entries of a finite map. *)
Definition gsum {K V : Type} `{Countable K} (f : K -> V -> N) (m : gmap K V) : N :=
  sumN (map (fun kv => f (fst kv) (snd kv)) (map_to_list m)).

(** The pots of the contract, as reported by its views (LS/storage/mod.rs). *)
Definition pending_egld (w : world) : N := pend (w_pool w). (* getPendingEGLDForDelegate *)
Definition unstake_queue (w : world) : N := pfu (w_pool w). (* getPendingEGLDForUnDelegate *)
Definition unbonding (w : world) : N := pfb (w_pool w). (* getPendingEgldForUnbond *)
Definition total_withdrawn (w : world) : N := withdrawn (w_pool w). (* getTotalWithdrawnEgld *)
Definition fees_reserve (w : world) : N := fees_res (w_pool w). (* getFeesReserve *)
Definition ls_supply (w : world) : N := supply (w_pool w). (* getLsSupply *)
Definition virtual_reserve (w : world) : N := reserve (w_pool w). (* getVirtualEgldReserve *)
(** LS units that [a] EGLD buy and EGLD that [x] LS units fetch, rounded down. *)
Definition ls_worth (w : world) (a : N) : N :=
  if virtual_reserve w =? 0 then a else a * ls_supply w / virtual_reserve w.
Definition egld_worth (w : world) (x : N) : N := x * virtual_reserve w / ls_supply w.
(** EGLD on the account of the contract. *)
Definition contract_egld (w : world) : N := w_egld w.

(** LS tokens in existence: the balances of all accounts added up. *)
Definition ls_in_existence (w : world) : N := gsum (fun _ v => v) (w_ls w).

(** Unstake tokens held by everybody except the contract. *)
Definition ust_of_users (w : world) : N :=
  gsum (fun k v => if snd k =? SELF then 0 else v) (w_ust w).

(** Totals over all provider records. *)
Definition staked_total (w : world) : N := gsum (fun _ p => p_staked p) (w_pv w).
Definition unstaked_total (w : world) : N := gsum (fun _ p => p_unstaked p) (w_pv w).
Definition pending_staking_total (w : world) : N := gsum (fun _ p => p_pst p) (w_pv w).
Definition pending_unstaking_total (w : world) : N := gsum (fun _ p => p_pun p) (w_pv w).

(** Amounts of calls. *)
Definition deleg_amt (c : addr) (k : call) : N :=
  match k with KDeleg c' a => if c' =? c then a else 0 | _ => 0 end.
Definition undel_amt (c : addr) (k : call) : N :=
  match k with KUndel c' a => if c' =? c then a else 0 | _ => 0 end.

(** Calls that have not been answered to the contract yet: not executed, or
    executed with the callback still to come. *)
Definition unanswered (w : world) : list call := w_calls w ++ map fst (w_res w).

(** EGLD of provider [c]'s unanswered delegate / unDelegate calls. *)
Definition deleg_in_flight (w : world) (c : addr) : N := sumN (map (deleg_amt c) (unanswered w)).
Definition undel_in_flight (w : world) (c : addr) : N := sumN (map (undel_amt c) (unanswered w)).

(** The list of statuses of a history. *)
Fixpoint statuses (w : world) (os : list op) : list status :=
  match os with [] => [] | o :: r => snd (step w o) :: statuses (fst (step w o)) r end.

(** A callback that aborted. *)
Definition cb_failed (s : status) : Prop := match s with SCbFail _ => True | _ => False end.

(** Reachable by a history in which no callback aborted. *)
Inductive ReachableClean : world -> Prop :=
| clean_deploy owner acc fees rpe minr maxsel maxaddr unbond epoch w :
    deploy owner acc fees rpe minr maxsel maxaddr unbond epoch = Ok w -> ReachableClean w
| clean_step w o :
    ReachableClean w -> ~ cb_failed (snd (step w o)) -> ReachableClean (fst (step w o)).

(** EGLD of all unanswered delegate / unDelegate calls. *)
Definition deleg_any (k : call) : N := match k with KDeleg _ a => a | _ => 0 end.
Definition undel_any (k : call) : N := match k with KUndel _ a => a | _ => 0 end.
Definition delegating_total (w : world) : N := sumN (map deleg_any (unanswered w)).
Definition undelegating_total (w : world) : N := sumN (map undel_any (unanswered w)).

(** Sum over a history of an amount read off each action and its status. *)
Fixpoint history_sum (f : op -> status -> N) (w : world) (os : list op) : N :=
  match os with
  | [] => 0
  | o :: r => f o (snd (step w o)) + history_sum f (fst (step w o)) r
  end.

(** Unstake tokens given away to the contract by a plain transfer. *)
Definition ust_given_away (o : op) (s : status) : N :=
  match o, s with OMoveUst _ _ to a, SOk => if to =? SELF then a else 0 | _, _ => 0 end.
(** Stake announced through migrate, EGLD paid through migratePending. *)
Definition migrated_stake (o : op) (s : status) : N :=
  match o, s with OTx _ _ _ (Migrate a _), SOk => a | _, _ => 0 end.
Definition migrated_pending (o : op) (s : status) : N :=
  match o, s with OTx _ a _ MigratePending, SOk => a | _, _ => 0 end.

(** A world right after deployment. *)
Definition Deployed (w : world) : Prop :=
  exists owner acc fees rpe minr maxsel maxaddr unbond epoch,
    deploy owner acc fees rpe minr maxsel maxaddr unbond epoch = Ok w.

(** No callback aborted in the history. *)
Definition clean_history (w : world) (os : list op) : Prop :=
  Forall (fun s => ~ cb_failed s) (statuses w os).

(** 1 EGLD, the smallest amount the staking providers accept. *)
Definition ONE_EGLD : N := 1000000000000000000.

(** A condition that holds before, during and after a history. *)
Fixpoint always (P : world -> Prop) (w : world) (os : list op) : Prop :=
  P w /\ match os with [] => True | o :: r => always P (fst (step w o)) r end.

(** Balances of one account. *)
Definition ls_balance (u : addr) (w : world) : N := amt_at (w_ls w) u.
Definition ust_balance (u : addr) (w : world) : N :=
  gsum (fun k v => if snd k =? u then v else 0) (w_ust w).

(** EGLD the contract sent to [u] in the last action. *)
Definition egld_to (u : addr) (e : eff) : N :=
  match e with XEgld to a => if to =? u then a else 0 | _ => 0 end.
Definition egld_sent (u : addr) (w : world) : N := sumN (map (egld_to u) (w_log w)).

(** What [u] got for the redemption that led from [w] to [w']: EGLD plus unstake tokens. *)
Definition paid_out (u : addr) (w w' : world) : N :=
  egld_sent u w' + (ust_balance u w' - ust_balance u w).

(** EGLD sent to [u] over a history. *)
Fixpoint egld_received (u : addr) (w : world) (os : list op) : N :=
  match os with
  | [] => 0
  | o :: r => egld_sent u (fst (step w o)) + egld_received u (fst (step w o)) r
  end.

(** Configuration, providers, lists, outstanding calls and the outside world
    are the same. *)
Definition rest_unchanged (w w' : world) : Prop :=
  w_cfg w' = w_cfg w /\ w_dl w' = w_dl w /\ w_ul w' = w_ul w /\ w_pv w' = w_pv w
  /\ w_epoch w' = w_epoch w /\ w_owner w' = w_owner w /\ w_calls w' = w_calls w
  /\ w_res w' = w_res w /\ w_live w' = w_live w.

(** Unstake tokens and their book-keeping are the same. *)
Definition ust_unchanged (w w' : world) : Prop :=
  w_un w' = w_un w /\ w_ust w' = w_ust w /\ w_attr w' = w_attr w /\ w_last w' = w_last w.

(** Amount of unstake tokens of nonce [n] held by [u]. *)
Definition ust_of (n : N) (u : addr) (w : world) : N := amt_at (w_ust w) (n, u).

(** Release epoch carried by unstake tokens of nonce [n]. *)
Definition release_epoch (n : N) (w : world) : option N :=
  match w_attr w !! n with Some (_, r) => Some r | None => None end.

(** Who initiates an action with own tokens at stake. *)
Definition initiator (o : op) : option addr :=
  match o with
  | OTx u _ _ _ => Some u
  | OMoveLs u _ _ => Some u
  | OMoveUst _ u _ _ => Some u
  | _ => None
  end.

(** Total of a list of payments, and the part in unstake tokens of nonce [n]. *)
Definition pay_total (l : list pay) : N := sumN (map y_amt l).
Definition pay_of_nonce (n : N) (l : list pay) : N :=
  sumN (map (fun p => match y_tok p with TokUst k => if k =? n then y_amt p else 0 | _ => 0 end) l).

(** Token ledgers and their book-keeping are the same; configuration, epoch,
    owner and the providers' own books are the same. *)
Definition ledgers_unchanged (w w' : world) : Prop :=
  w_ls w' = w_ls w /\ ust_unchanged w w'.
Definition env_unchanged (w w' : world) : Prop :=
  w_cfg w' = w_cfg w /\ w_epoch w' = w_epoch w /\ w_owner w' = w_owner w /\ w_live w' = w_live w.

(** Amount that a batch, a list of (provider, amount), sends to [c]. *)
Definition amount_for (c : addr) (l : list (addr * N)) : N :=
  sumN (map (fun x => if fst x =? c then snd x else 0) l).

(** Endpoints that move value; they need the LS token. *)
Definition needs_ls_token (ep : endpoint) : bool :=
  match ep with
  | Delegate | UnDelegate | Withdraw | DelegatePending _ | UnDelegatePending _ | WithdrawPending _
  | ClaimRewards | ClaimFees _ | Migrate _ _ | MigratePending | AddRewards => true
  | _ => false
  end.

(** Who may call what (LS/config.rs, LS/manage.rs, LS/delegation.rs,
    LS/migrate.rs). *)
Definition owner_only (ep : endpoint) : bool :=
  match ep with
  | RegisterLsToken | RegisterUnstakeToken | SetStateActive | SetStateInactive | SetAccumulator _ | SetFees _
  | SetMinimumRounds _ | SetMaxAddresses _ | SetMaxSelected _ | SetUnbondPeriod _ | AddManagers _ | RemoveManager _
  | SetMigrationSc _ => true
  | _ => false
  end.
Definition manager_only (ep : endpoint) : bool :=
  match ep with
  | DelegatePending _ | UnDelegatePending _ | WithdrawPending _ | ClaimRewards | Whitelist _ _ _ _ _ _
  | ChangeAdmin _ _ | SetScoringConfig _ => true
  | _ => false
  end.
(** Endpoints that work only in an active contract. *)
Definition needs_active (ep : endpoint) : bool :=
  match ep with
  | Delegate | UnDelegate | Withdraw | DelegatePending _ | UnDelegatePending _ | WithdrawPending _ | ClaimRewards => true
  | _ => false
  end.

(** Nothing happened: the same world, with no effects. *)
Definition nothing_happened (w w' : world) : Prop := w' = set_log [] w.

(** The values an event reports, if it is a liquidity event. *)
Definition reported (e : eff) : option (pool * N) :=
  match e with
  | EvAdd _ _ p t | EvRemove _ _ p t | EvWithdrawPending _ _ _ p t | EvClaim _ _ p t | EvGeneral _ p t => Some (p, t)
  | _ => None
  end.

(** EGLD deposited to the accumulator [u] in the last action. *)
Definition deposited_to (u : addr) (e : eff) : N :=
  match e with XDeposit to a => if to =? u then a else 0 | _ => 0 end.
Definition fees_sent (u : addr) (w : world) : N := sumN (map (deposited_to u) (w_log w)).

(** The event [e], emitted by the action that led from [w] to [w'], is correct:
    the values and the epoch are those after the action, and the amount is the
    change it announces. *)
Definition event_correct (w w' : world) (e : eff) : Prop :=
  (forall p t, reported e = Some (p, t) -> p = w_pool w' /\ t = w_epoch w')
  /\ match e with
     | EvAdd a _ _ _ => virtual_reserve w' = virtual_reserve w + a
     | EvRemove a _ _ _ => virtual_reserve w' + a = virtual_reserve w
     | EvWithdrawPending a _ _ _ _ => total_withdrawn w' = total_withdrawn w + a
     | EvRevenue f t => fees_reserve w' = fees_reserve w + f /\ t = w_epoch w'
     | EvClaim a _ _ _ => virtual_reserve w' + fees_reserve w' = virtual_reserve w + fees_reserve w + a
     | _ => True
     end.

(** A condition on every action of a history, in the world in which it happens. *)
Fixpoint along (P : world -> op -> Prop) (w : world) (os : list op) : Prop :=
  match os with [] => True | o :: r => P w o /\ along P (fst (step w o)) r end.

(** The action is a provider rejecting a delegation. *)
Definition rejects_delegation (w : world) (o : op) : Prop :=
  match o with
  | OExec i None => match nth_error (w_calls w) i with Some (KDeleg _ _) => True | _ => False end
  | _ => False
  end.

(** Recorded stake of a provider with the calls in flight counted in: zero or at
    least 1 EGLD. *)
Definition net_zero_or_one (p : prov) : Prop :=
  p_staked p + p_pst p = p_pun p \/ p_pun p + ONE_EGLD <= p_staked p + p_pst p.

(** Net stake of a provider: recorded stake with the calls in flight counted in. *)
Definition net_stake (p : prov) : N := p_staked p + p_pst p - p_pun p.

(** A scoring configuration whose node and APY ranges are not single points. *)
Definition distinct_bounds (c : scfg) : Prop :=
  k_min_nodes c <> k_max_nodes c /\ k_min_apy c <> k_max_apy c.

(** A batch request that fits the queue [q]: everything, or an amount of at
    least 1 EGLD that leaves nothing or at least 1 EGLD. *)
Definition fits_queue (o : option N) (q : N) : Prop :=
  ONE_EGLD <= q
  /\ match o with Some x => ONE_EGLD <= x <= q /\ (x = q \/ x + ONE_EGLD <= q) | None => True end.

(** [u] may operate the contract, which is open. *)
Definition operator (u : addr) (w : world) : Prop :=
  u <> SELF /\ (u = w_owner w \/ u ∈ c_mgrs (w_cfg w))
  /\ c_lstok (w_cfg w) = TIssued /\ c_active (w_cfg w) = true.

(** A listed provider that can be given at least 1 EGLD more. *)
Definition has_room (p : prov) : Prop :=
  p_elig p = true /\ p_pun p <= p_staked p + p_pst p /\ (p_cap p = 0 \/ net_stake p + ONE_EGLD <= p_cap p).

(** A provider that is not eligible, or whose net stake is defined and within its cap. *)
Definition within_cap (p : prov) : Prop :=
  p_elig p = false \/ p_pun p <= p_staked p + p_pst p /\ (p_cap p = 0 \/ net_stake p <= p_cap p).

(** The provider a call goes to, if any. *)
Definition provider_of (k : call) : option addr :=
  match k with KDeleg c _ | KUndel c _ | KWithd c | KWhite c _ _ => Some c | _ => None end.

(** The action, if it is the delivery of a reply, delivers the oldest reply of
    its provider; and the reply is one the contract is configured for: the LS
    token is issued when a whitelisting is answered and its deposit is worth at
    least one LS unit, the fee is at most 100% when rewards arrive. No provider
    tampers with the stake and no callback is cut short. *)
Definition orderly (w : world) (o : op) : Prop :=
  match o with
  | OCb i =>
      match nth_error (w_res w) i with
      | Some (k, r) =>
          (forall j k' r', (j < i)%nat -> nth_error (w_res w) j = Some (k', r') ->
             provider_of k = None \/ provider_of k' <> provider_of k)
          /\ match k with
             | KWhite _ a _ => c_lstok (w_cfg w) = TIssued
                 /\ (virtual_reserve w = 0 \/ virtual_reserve w <= a * ls_supply w)
             | KClaim _ => c_fees (w_cfg w) <= 10000
             | _ => True
             end
      | None => True
      end
  | OProvider _ _ _ | OAbort _ => False
  | _ => True
  end.

(** Amounts of provider [c]'s successful calls whose reply has not been
    delivered: stake added, stake un-delegated, EGLD withdrawn. *)
Definition added (c : addr) (x : call * reply) : N :=
  match x with
  | (KDeleg c' a, RDone _) | (KWhite c' a _, RDone _) => if c' =? c then a else 0
  | _ => 0
  end.
Definition undelegated (c : addr) (x : call * reply) : N :=
  match x with (KUndel c' a, RDone _) => if c' =? c then a else 0 | _ => 0 end.
Definition handed_back (c : addr) (x : call * reply) : N :=
  match x with (KWithd c', RDone v) => if c' =? c then v else 0 | _ => 0 end.
Definition undelivered (f : addr -> call * reply -> N) (w : world) (c : addr) : N :=
  sumN (map (f c) (w_res w)).

(** Recorded staked and unbonding amounts of a provider; zero without a record. *)
Definition recorded (w : world) (c : addr) : N * N :=
  match w_pv w !! c with Some p => (p_staked p, p_unstaked p) | None => (0, 0) end.

(** Number of unanswered whitelistings. *)
Definition whitelisting (w : world) : N :=
  sumN (map (fun k => match k with KWhite _ _ _ => 1 | _ => 0 end) (unanswered w)).

(** EGLD on the account that is in none of the pots. *)
Definition unaccounted (w : world) : N :=
  contract_egld w - (pending_egld w + total_withdrawn w + fees_reserve w).

(** The limit of the list is at most [M], and a whitelisting is started only while
    fewer than [K] are unanswered. *)
Definition whitelisting_within (M K : N) (w : world) (o : op) : Prop :=
  c_maxaddr (w_cfg w) <= M
  /\ match o with
     | OTx _ _ _ (Whitelist _ _ _ _ _ _) => whitelisting w < K
     | _ => True
     end.

(** The action brings rewards to the pool: addRewards with EGLD, or the delivery
    of claimed rewards. *)
Definition brings_rewards (w : world) (o : op) : Prop :=
  match o with
  | OTx _ a _ AddRewards => 0 < a
  | OCb i => match nth_error (w_res w) i with Some (KClaim _, RDone v) => 0 < v | _ => False end
  | _ => False
  end.
