(** Spec18.v — vocabulary of property C123: what the methods of the generated client are
    meant to do. *)
From Coq Require Import String.
From Verif Require Export Proxy Spec14.
Open Scope N_scope.

(** What each method is meant to ask for. The contract knows no delegate_rewards. *)
Definition intended (m : method) : option endpoint :=
  match m with
  | ViaDelegate => Some Delegate | ViaUnDelegate => Some UnDelegate | ViaWithdraw => Some Withdraw
  | ViaRegisterLsToken _ _ _ => Some RegisterLsToken | ViaRegisterUnstakeToken _ _ _ => Some RegisterUnstakeToken
  | ViaSetStateActive => Some SetStateActive | ViaSetStateInactive => Some SetStateInactive
  | ViaSetAccumulatorContract a => Some (SetAccumulator a) | ViaSetFees k => Some (SetFees k)
  | ViaSetMinimumRounds k => Some (SetMinimumRounds k) | ViaSetMaxAddresses k => Some (SetMaxAddresses k)
  | ViaSetMaxSelectedProviders k => Some (SetMaxSelected k) | ViaSetUnbondPeriod k => Some (SetUnbondPeriod k)
  | ViaSetManagers l => Some (AddManagers l) | ViaRemoveManager a => Some (RemoveManager a)
  | ViaSetScoringConfig s => Some (SetScoringConfig s)
  | ViaDelegatePending x => Some (DelegatePending x) | ViaUnDelegatePending x => Some (UnDelegatePending x)
  | ViaWithdrawPending c => Some (WithdrawPending c) | ViaClaimRewards => Some ClaimRewards
  | ViaDelegateRewards => None
  | ViaMigrate a o => Some (Migrate a o) | ViaMigratePending => Some MigratePending | ViaAddRewards => Some AddRewards
  | ViaAddMigrationScAddress a => Some (SetMigrationSc a)
  | ViaWhitelist c a t k n y => Some (Whitelist c a t k n y) | ViaChangeAdmin c a => Some (ChangeAdmin c a)
  | ViaChangeParams c t k n y e => Some (ChangeParams c t k n y e)
  end.
(** The decimals of a token are a number of four bytes. *)
Definition decimals_fit (m : method) : Prop :=
  match m with ViaRegisterLsToken _ _ k | ViaRegisterUnstakeToken _ _ k => k < 2 ^ 32 | _ => True end.
(** A call by a method, by anybody, with any payment. *)
Definition call_by (m : method) (w : world) (caller egld : N) (pays : list pay) (ok : bool) : world * status :=
  step_bytes w caller egld pays ok (text (fst (proxy_call m))) (snd (proxy_call m)).

(** What each question is about. The first eight of the ten fields of a record are what the
    client knows of it; the rewards reserve is now the reserve of fees. *)
Definition known (p : prov) : contract_info :=
  Info (p_admin p) (p_total p) (p_cap p) (p_nodes p) (p_apy p) (p_staked p) (p_unstaked p) (p_elig p).
Definition if_ok (r : res N) : option result := match r with Ok x => Some (SNum x) | Er _ => None end.
Definition truth (q : asking) (w : world) : option result :=
  let g := w_cfg w in let k := w_pool w in
  match q with
  | QLsValueForPosition x => if_ok (view_ls_value x w)
  | QEgldPositionValue x => if_ok (view_egld_value x w)
  | QExchangeRate => if_ok (view_exchange_rate w)
  | QStakedAmount c => match w_pv w !! c with Some p => Some (SNum (p_staked p)) | None => None end
  | QUnstakedAmount c => match w_pv w !! c with Some p => Some (SNum (p_unstaked p)) | None => None end
  | QDelegationContractData c => match w_pv w !! c with Some p => Some (SInfo (known p)) | None => None end
  | QDelegationAddressesList => Some (SAddrs (w_dl w))
  | QUnDelegationAddressesList => Some (SAddrs (w_ul w))
  | QManagers => Some (SAddrs (c_mgrs g))
  | QScoringConfig => match c_score g with Some s => Some (SScoring s) | None => None end
  | QFees => Some (SNum (c_fees g))
  | QAccumulatorContract => Some (SAddr (c_acc g))
  | QRoundsPerEpoch => Some (SNum (c_rpe g))
  | QMinimumRounds => Some (SNum (c_minr g))
  | QState => Some (SState (c_active g))
  | QLsTokenSupply => Some (SNum (supply k))
  | QVirtualEgldReserve => Some (SNum (reserve k))
  | QRewardsReserve => Some (SNum (fees_res k))
  | QTotalWithdrawnEgld => Some (SNum (withdrawn k))
  | QPendingEgld => Some (SNum (pend k))
  | QPendingEgldForUnstake => Some (SNum (pfu k))
  | QPendingEgldForUnbond => Some (SNum (pfb k))
  | QUnstakeTokenNonce e => Some (SNum (match w_un w !! e with Some n => n | None => 0 end))
  | QMaxDelegationAddresses => Some (SNum (c_maxaddr g))
  | QMaxSelectedProviders => Some (SNum (c_maxsel g))
  | QUnbondPeriod => Some (SNum (c_unbond g))
  | QMigrationScAddress => match c_migr g with Some a => Some (SAddr a) | None => None end
  end.
(** Questions whose argument fits. *)
Definition askable (q : asking) : Prop :=
  match q with
  | QStakedAmount c | QUnstakedAmount c | QDelegationContractData c => c < 2 ^ 256
  | QUnstakeTokenNonce e => e < 2 ^ 64
  | _ => True
  end.
(** The two questions that the client no longer gets right. *)
Definition outdated (q : asking) : Prop :=
  match q with QRewardsReserve | QDelegationContractData _ => True | _ => False end.
