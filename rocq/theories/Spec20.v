(** Spec20.v — for C125 and C126: which actions take notice of which setting.
    A [tweak] replaces one setting of the contract (or the owner, or the stakes the
    providers really have) by another value; [heeds] is the complete list of the
    actions that look at it or write it. *)
From Verif Require Export Spec.

(** Settings: state, fees, accumulator, rounds per epoch, minimum rounds, maximum
    of listed and of selected providers, unbonding period, score settings,
    migration contract, managers (LS/storage/mod.rs:23-53,91-101,
    LS/migrate.rs:95-97); then the owner, kept by the chain, and the real stakes,
    kept by the providers. *)
Inductive tweak :=
| TwActive (b : bool)
| TwFees (f : N)
| TwAcc (a : addr)
| TwRpe (n : N)
| TwMinr (n : N)
| TwMaxaddr (n : N)
| TwMaxsel (n : N)
| TwUnbond (n : N)
| TwScore (s : option scfg)
| TwMigr (m : option addr)
| TwMgrs (l : list addr)
| TwOwner (a : addr)
| TwLive (m : gmap addr (N * N)).

(** The same state with that setting replaced. *)
Definition tweaked (t : tweak) (w : world) : world :=
  match t with
  | TwActive b => set_cfg (set_c_active b (w_cfg w)) w
  | TwFees f => set_cfg (set_c_fees f (w_cfg w)) w
  | TwAcc a => set_cfg (set_c_acc a (w_cfg w)) w
  | TwRpe n => set_cfg (set_c_rpe n (w_cfg w)) w
  | TwMinr n => set_cfg (set_c_minr n (w_cfg w)) w
  | TwMaxaddr n => set_cfg (set_c_maxaddr n (w_cfg w)) w
  | TwMaxsel n => set_cfg (set_c_maxsel n (w_cfg w)) w
  | TwUnbond n => set_cfg (set_c_unbond n (w_cfg w)) w
  | TwScore s => set_cfg (set_c_score s (w_cfg w)) w
  | TwMigr m => set_cfg (set_c_migr m (w_cfg w)) w
  | TwMgrs l => set_cfg (set_c_mgrs l (w_cfg w)) w
  | TwOwner a => set_owner a w
  | TwLive m => set_live m w
  end.

(** The endpoints that look at the setting. *)
Definition looks (ep : endpoint) (t : tweak) : bool :=
  match t, ep with
  | TwActive _, (Delegate | UnDelegate | Withdraw | DelegatePending _ | UnDelegatePending _
                | WithdrawPending _ | ClaimRewards) => true
  | TwAcc _, ClaimFees _ => true
  | TwMaxaddr _, Whitelist _ _ _ _ _ _ => true
  | TwMaxsel _, (DelegatePending _ | UnDelegatePending _) => true
  | TwUnbond _, UnDelegate => true
  | TwScore _, (DelegatePending _ | UnDelegatePending _) => true
  | TwMigr _, (Migrate _ _ | MigratePending) => true
  | TwMgrs _, (DelegatePending _ | UnDelegatePending _ | WithdrawPending _ | ClaimRewards
              | Whitelist _ _ _ _ _ _ | ChangeAdmin _ _ | ChangeParams _ _ _ _ _ _
              | SetScoringConfig _ | AddManagers _ | RemoveManager _) => true
  | TwOwner _, (DelegatePending _ | UnDelegatePending _ | WithdrawPending _ | ClaimRewards
              | Whitelist _ _ _ _ _ _ | ChangeAdmin _ _ | ChangeParams _ _ _ _ _ _
              | SetScoringConfig _ | AddManagers _ | RemoveManager _
              | RegisterLsToken | RegisterUnstakeToken | SetStateActive | SetStateInactive
              | SetAccumulator _ | SetFees _ | SetMinimumRounds _ | SetMaxAddresses _
              | SetMaxSelected _ | SetUnbondPeriod _ | SetMigrationSc _) => true
  | _, _ => false
  end.

(** The endpoints that replace the setting without looking at the old value. *)
Definition replaces (ep : endpoint) (t : tweak) : bool :=
  match t, ep with
  | TwActive _, (SetStateActive | SetStateInactive) => true
  | TwFees _, SetFees _ => true
  | TwAcc _, SetAccumulator _ => true
  | TwMinr _, SetMinimumRounds _ => true
  | TwMaxaddr _, SetMaxAddresses _ => true
  | TwMaxsel _, SetMaxSelected _ => true
  | TwUnbond _, SetUnbondPeriod _ => true
  | TwScore _, SetScoringConfig _ => true
  | TwMigr _, SetMigrationSc _ => true
  | _, _ => false
  end.

(** The actions that look at the setting or write it. Of the callbacks only that
    of claimRewards looks at one (the fees); the providers answer according to
    the stakes they really have. *)
Definition heeds (w : world) (o : op) (t : tweak) : bool :=
  match o with
  | OTx _ _ _ ep => looks ep t || replaces ep t
  | OCb i =>
      match t, nth_error (w_res w) i with
      | TwFees _, Some (KClaim _, _) => true
      | _, _ => false
      end
  | OOwner _ => match t with TwOwner _ => true | _ => false end
  | OExec _ _ | OProvider _ _ _ => match t with TwLive _ => true | _ => false end
  | _ => false
  end.

(** Two tweaks of the same setting. *)
Definition same_setting (t t' : tweak) : bool :=
  match t, t' with
  | TwActive _, TwActive _ | TwFees _, TwFees _ | TwAcc _, TwAcc _ | TwRpe _, TwRpe _
  | TwMinr _, TwMinr _ | TwMaxaddr _, TwMaxaddr _ | TwMaxsel _, TwMaxsel _ | TwUnbond _, TwUnbond _
  | TwScore _, TwScore _ | TwMigr _, TwMigr _ | TwMgrs _, TwMgrs _ | TwOwner _, TwOwner _
  | TwLive _, TwLive _ => true
  | _, _ => false
  end.

(** The tweak makes a difference to the action: another answer, or another state
    than the tweaked one. *)
Definition matters (w : world) (o : op) (t : tweak) : Prop :=
  step (tweaked t w) o <> (tweaked t (fst (step w o)), snd (step w o)).

(** A history no action of which looks at the setting or writes it. *)
Definition ignores (t : tweak) (w : world) (os : list op) : Prop :=
  forall pre o post, os = pre ++ o :: post -> heeds (run w pre) o t = false.
