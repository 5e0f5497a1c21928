(** Spec9.v — vocabulary of properties C100 and C101. *)
From Verif Require Export Spec8.

(** Everything under way comes to an end: the waiting calls are answered as [outs]
    says, oldest first, and then all replies arrive in the order they were given. *)
Definition settle (w : world) (outs : list (option N)) : list op :=
  map (OExec 0) outs ++ repeat (OCb 0) (length (w_res w) + length (w_calls w)).

(** The call is not the first stake at a new provider. *)
Definition no_whitelisting (k : call) : Prop := match k with KWhite _ _ _ => False | _ => True end.

(** The parts of the state: the seven amounts of the pool, the EGLD balance, the
    settings, the two lists, the entries of the record of a provider, the tokens of an
    account, the book of unstake tokens (release epochs, attributes and last nonce), the
    epoch, the owner, what is under way, and what a provider really holds. *)
Inductive part :=
| Supply | Reserve | Fees | Pot | StakeQueue | UnstakeQueue | Unbonding | Balance
| SActive | SFees | SAccumulator | SRounds | SMinRounds | SMaxListed | SMaxSelected | SPeriod
| SScoring | SMigration | SManagers | SLsToken | SUnstakeToken
| StakeList | UnstakeList
| RAdmin (c : addr) | RParams (c : addr) | REligible (c : addr)
| RStaked (c : addr) | RUnbonding (c : addr) | RStaking (c : addr) | RUnstaking (c : addr)
| LsOf (u : addr) | UstOf (n : N) (u : addr) | TokenBook
| Epoch | Owner | Calls | Replies | Holding (c : addr).

(** The part is the same in both states. *)
Definition same (p : part) (w v : world) : Prop :=
  let g := w_cfg w in let h := w_cfg v in
  let entry {A : Type} (f : prov -> A) c := (f <$> w_pv v !! c) = (f <$> w_pv w !! c) in
  match p with
  | Supply => ls_supply v = ls_supply w
  | Reserve => virtual_reserve v = virtual_reserve w
  | Fees => fees_reserve v = fees_reserve w
  | Pot => total_withdrawn v = total_withdrawn w
  | StakeQueue => pending_egld v = pending_egld w
  | UnstakeQueue => unstake_queue v = unstake_queue w
  | Unbonding => unbonding v = unbonding w
  | Balance => contract_egld v = contract_egld w
  | SActive => c_active h = c_active g
  | SFees => c_fees h = c_fees g
  | SAccumulator => c_acc h = c_acc g
  | SRounds => c_rpe h = c_rpe g
  | SMinRounds => c_minr h = c_minr g
  | SMaxListed => c_maxaddr h = c_maxaddr g
  | SMaxSelected => c_maxsel h = c_maxsel g
  | SPeriod => c_unbond h = c_unbond g
  | SScoring => c_score h = c_score g
  | SMigration => c_migr h = c_migr g
  | SManagers => c_mgrs h = c_mgrs g
  | SLsToken => c_lstok h = c_lstok g
  | SUnstakeToken => c_usttok h = c_usttok g
  | StakeList => w_dl v = w_dl w
  | UnstakeList => w_ul v = w_ul w
  | RAdmin c => entry p_admin c
  | RParams c => entry p_total c /\ entry p_cap c /\ entry p_nodes c /\ entry p_apy c
  | REligible c => entry p_elig c
  | RStaked c => entry p_staked c
  | RUnbonding c => entry p_unstaked c
  | RStaking c => entry p_pst c
  | RUnstaking c => entry p_pun c
  | LsOf u => ls_balance u v = ls_balance u w
  | UstOf n u => ust_of n u v = ust_of n u w
  | TokenBook => w_un v = w_un w /\ w_attr v = w_attr w /\ w_last v = w_last w
  | Epoch => w_epoch v = w_epoch w
  | Owner => w_owner v = w_owner w
  | Calls => w_calls v = w_calls w
  | Replies => w_res v = w_res w
  | Holding c => live_of v c = live_of w c
  end.

(** Which parts a transaction of [u] with endpoint [ep] may change. *)
Definition tx_changes (w : world) (u : addr) (ep : endpoint) (p : part) : bool :=
  match ep, p with
  | Delegate, (Supply | Reserve | Pot | StakeQueue | UnstakeQueue | Balance) => true
  | Delegate, LsOf v => v =? u
  | UnDelegate, (Supply | Reserve | StakeQueue | UnstakeQueue | Balance | TokenBook) => true
  | UnDelegate, LsOf v => v =? u
  | UnDelegate, UstOf _ v => (v =? u) || (v =? SELF)
  | Withdraw, (Pot | Balance) => true
  | Withdraw, UstOf _ v => v =? u
  | DelegatePending _, (StakeQueue | Balance | StakeList | Calls) => true
  | DelegatePending _, RStaking c => existsb (N.eqb c) (w_dl w)
  | UnDelegatePending _, (UnstakeQueue | UnstakeList | Calls) => true
  | UnDelegatePending _, RUnstaking c => existsb (N.eqb c) (w_ul w)
  | (WithdrawPending _ | ClaimRewards), Calls => true
  | ClaimFees _, (Fees | Balance) => true
  | Whitelist _ _ _ _ _ _, Calls => true
  | Whitelist d _ _ _ _ _, (RAdmin c | RParams c | REligible c | RStaked c | RUnbonding c | RStaking c | RUnstaking c) => c =? d
  | ChangeAdmin d _, RAdmin c => c =? d
  | ChangeParams d _ _ _ _ _, (RParams c | REligible c) => c =? d
  | RegisterLsToken, (SLsToken | Calls) => true
  | RegisterUnstakeToken, (SUnstakeToken | Calls) => true
  | (SetStateActive | SetStateInactive), SActive => true
  | SetAccumulator _, SAccumulator => true
  | SetFees _, SFees => true
  | SetMinimumRounds _, SMinRounds => true
  | SetMaxAddresses _, SMaxListed => true
  | SetMaxSelected _, SMaxSelected => true
  | SetUnbondPeriod _, SPeriod => true
  | (AddManagers _ | RemoveManager _), SManagers => true
  | SetScoringConfig _, SScoring => true
  | Migrate _ _, (Supply | Reserve) => true
  | Migrate _ _, LsOf v => v =? u
  | MigratePending, (StakeQueue | Balance) => true
  | AddRewards, (Reserve | StakeQueue | Balance) => true
  | SetMigrationSc _, SMigration => true
  | _, _ => false
  end.

(** Which parts, besides the list of replies, the arrival of a reply may change. *)
Definition reply_changes (k : call) (r : reply) (p : part) : bool :=
  match k, r, p with
  | KDeleg d _, RDone _, (RStaked c | RStaking c) => c =? d
  | KDeleg _ _, RFail, (StakeQueue | Balance) => true
  | KDeleg d _, RFail, (RStaking c | REligible c) => c =? d
  | KUndel _ _, RDone _, Unbonding => true
  | KUndel d _, RDone _, (RStaked c | RUnbonding c | RUnstaking c) => c =? d
  | KUndel _ _, RFail, UnstakeQueue => true
  | KUndel d _, RFail, RUnstaking c => c =? d
  | KWithd _, RDone _, (Pot | Unbonding | Balance) => true
  | KWithd d, RDone _, RUnbonding c => c =? d
  | KClaim _, RDone _, (Reserve | Fees | StakeQueue | Balance) => true
  | KWhite _ _ _, RDone _, (Supply | Reserve | StakeList | UnstakeList) => true
  | KWhite d _ _, RDone _, RStaked c => c =? d
  | KWhite _ _ u, RDone _, LsOf v => v =? u
  | KWhite _ _ _, RFail, Balance => true
  | KWhite d _ _, RFail, (RAdmin c | RParams c | REligible c | RStaked c | RUnbonding c | RStaking c | RUnstaking c) => c =? d
  | KIssue true _ _, _, SLsToken => true
  | KIssue false _ _, _, SUnstakeToken => true
  | _, _, _ => false
  end.

(** Which parts an action may change. *)
Definition may_change (w : world) (o : op) (p : part) : bool :=
  match o with
  | OTx u _ _ ep => tx_changes w u ep p
  | OExec i _ =>
      match p with
      | Calls | Replies => true
      | Holding c => match nth_error (w_calls w) i with
                     | Some k => match provider_of k with Some d => c =? d | None => false end
                     | None => false
                     end
      | _ => false
      end
  | OCb i =>
      match nth_error (w_res w) i with
      | Some (k, r) => match p with Replies => true | _ => reply_changes k r p end
      | None => false
      end
  | OEpoch _ => match p with Epoch => true | _ => false end
  | OMoveLs u v _ => match p with LsOf x => (x =? u) || (x =? v) | _ => false end
  | OMoveUst n u v _ => match p with UstOf m x => (m =? n) && ((x =? u) || (x =? v)) | _ => false end
  | ODonate _ => match p with Balance => true | _ => false end
  | OOwner _ => match p with Owner => true | _ => false end
  | OProvider c _ _ => match p with Holding d => d =? c | _ => false end
  | OAbort _ => match p with Replies | Balance => true | _ => false end
  end.
