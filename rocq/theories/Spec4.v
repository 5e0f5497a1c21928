(** Spec4.v — further vocabulary of the property statements (C85 onwards). Like
    Spec.v, nothing here refers to the helpers of the contract model. *)
From Verif Require Export Spec3.

(** A provider that can be rated: neither its number of nodes nor its APY is
    equal to both ends of the configured range. *)
Definition ratable (sc : scfg) (p : prov) : Prop :=
  ~ (k_min_nodes sc = p_nodes p /\ k_max_nodes sc = p_nodes p)
  /\ ~ (k_min_apy sc = p_apy p /\ k_max_apy sc = p_apy p).

(** An action other than setting the unbond period. *)
Definition keeps_period (o : op) : Prop :=
  match o with OTx _ _ _ (SetUnbondPeriod _) => False | _ => True end.

(** [u] is the owner or a manager. *)
Definition manages (u : addr) (w : world) : Prop := u = w_owner w \/ u ∈ c_mgrs (w_cfg w).

(** An amount that can be taken up by the queue [q]: it closes the queue, leaves
    1 EGLD in it, or is (with what is already waiting in [other]) at least 1 EGLD. *)
Definition closes (a q : N) : Prop := a = q \/ a + ONE_EGLD <= q.
Definition placeable (a q other : N) : Prop := ONE_EGLD <= a \/ closes a q \/ ONE_EGLD <= other + a.

(** Whether delegatePending / unDelegatePending find providers. *)
Definition deleg_possible (w : world) (a : N) : Prop :=
  candidates w a <> []
  /\ (forall l1 c l2, w_dl w = l1 ++ c :: l2 ->
        N.of_nat (length (List.filter (fun d => takes_more (rec w d)) l1)) < N.min (a / ONE_EGLD) (c_maxsel (w_cfg w)) ->
        within_cap (rec w c))
  /\ exists sc, c_score (w_cfg w) = Some sc /\ forall c, In c (candidates w a) -> ratable sc (rec w c).
Definition undel_possible (w : world) (a : N) : Prop :=
  let staked l := List.filter (fun c => 0 <? net_stake (rec w c)) l in
  c_maxsel (w_cfg w) < 2 ^ 64
  /\ (forall l1 c l2, w_ul w = l1 ++ c :: l2 ->
     N.of_nat (length (staked l1)) < undel_limit w -> ~ enough w a (staked l1) ->
     p_pun (rec w c) <= p_staked (rec w c) + p_pst (rec w c))
  /\ exists l sc, undel_candidates w a l /\ l <> [] /\ c_score (w_cfg w) = Some sc
     /\ forall c, In c l -> ONE_EGLD <= net_stake (rec w c) /\ ratable sc (rec w c).

(** The complete list of what a transaction of account [u] with EGLD [eg] and
    tokens [pays] must meet to be accepted. *)
Definition acceptable (w : world) (u eg : N) (pays : list pay) (ep : endpoint) : Prop :=
  let g := w_cfg w in
  let issued := c_lstok g = TIssued in
  let active := c_active g = true in
  let free := eg = 0 /\ pays = [] in
  u <> SELF /\
  match ep with
  | Delegate =>
      pays = [] /\ 0 < eg /\ issued /\ active /\ 0 < ls_worth w eg /\ placeable eg (unstake_queue w) (pending_egld w)
  | UnDelegate =>
      exists x, pays = [Pay TokLs x] /\ eg = 0 /\ issued /\ active
      /\ 0 < x /\ x <= ls_balance u w /\ 0 < egld_worth w x
      /\ placeable (egld_worth w x) (pending_egld w) (unstake_queue w)
      /\ (closes (egld_worth w x) (pending_egld w) \/ c_usttok g = TIssued)
  | Withdraw =>
      (eg = 0 \/ pays = []) /\ issued /\ active /\ c_usttok g = TIssued
      /\ Forall (fun q => 0 < y_amt q /\ exists n r, y_tok q = TokUst n /\ release_epoch n w = Some r /\ r <= w_epoch w) pays
      /\ (forall n, pay_of_nonce n pays <= ust_of n u w)
      /\ (pays = [] \/ pay_total (removelast pays) < total_withdrawn w)
  | DelegatePending o =>
      free /\ issued /\ active /\ manages u w /\ fits_queue o (pending_egld w) /\ deleg_possible w (default (pending_egld w) o)
  | UnDelegatePending o =>
      free /\ issued /\ active /\ manages u w /\ fits_queue o (unstake_queue w) /\ undel_possible w (default (unstake_queue w) o)
  | WithdrawPending c => free /\ issued /\ active /\ manages u w /\ is_Some (w_pv w !! c)
  | ClaimRewards => free /\ issued /\ active /\ manages u w /\ w_dl w <> []
  | ClaimFees ok => free /\ issued /\ ok = true /\ 0 < fees_reserve w /\ c_acc g <> SELF
  | Whitelist c _ total cap nodes apy =>
      pays = [] /\ ONE_EGLD <= eg /\ manages u w /\ w_pv w !! c = None /\ (total <= cap \/ cap = 0)
      /\ N.of_nat (length (w_dl w)) <= c_maxaddr g /\ N.of_nat (length (w_ul w)) <= c_maxaddr g
      /\ nodes < 2 ^ 64 /\ apy < 2 ^ 64
  | ChangeAdmin c _ => free /\ manages u w /\ is_Some (w_pv w !! c)
  | ChangeParams c total cap nodes apy _ =>
      free /\ (exists p, w_pv w !! c = Some p /\ (u = p_admin p \/ manages u w)) /\ (total <= cap \/ cap = 0)
      /\ nodes < 2 ^ 64 /\ apy < 2 ^ 64
  | RegisterLsToken => pays = [] /\ u = w_owner w /\ c_lstok g = TNotSet
  | RegisterUnstakeToken => pays = [] /\ u = w_owner w /\ c_usttok g = TNotSet
  | SetStateActive | SetStateInactive | SetAccumulator _ | SetFees _ | AddManagers _ | RemoveManager _ =>
      free /\ u = w_owner w
  | SetMinimumRounds x | SetUnbondPeriod x => free /\ u = w_owner w /\ x < 2 ^ 64
  | SetMaxAddresses x => free /\ u = w_owner w /\ 1 <= x < 2 ^ 32
  | SetMaxSelected x => free /\ u = w_owner w /\ 1 <= x
  | SetMigrationSc a => free /\ u = w_owner w /\ is_smart_contract a = true
  | SetScoringConfig s =>
      free /\ manages u w
      /\ Forall (fun x => x < 2 ^ 64) [k_min_nodes s; k_max_nodes s; k_min_apy s; k_max_apy s; k_stake_w s; k_apy_w s;
                                       k_nodes_w s; k_max_score s; k_exp s; k_apy_mul s]
      /\ (k_stake_w s + k_apy_w s + k_nodes_w s) mod 2 ^ 64 = 100
  | Migrate a _ => free /\ issued /\ c_migr g = Some u /\ u <> 0 /\ is_smart_contract u = true /\ 0 < ls_worth w a
  | MigratePending => pays = [] /\ issued /\ c_migr g = Some u /\ u <> 0 /\ is_smart_contract u = true
  | AddRewards => pays = [] /\ issued
  end.

(** What a waiting reply must meet to be booked by its callback. *)
Definition bookable (w : world) (k : call) (r : reply) : Prop :=
  match k, r with
  | KUndel c a, RDone _ => a <= p_staked (rec w c)
  | KWithd c, RDone v => v <= p_unstaked (rec w c)
  | KClaim _, RDone v => v * c_fees (w_cfg w) / 10000 <= v
  | KWhite _ a _, RDone _ => c_lstok (w_cfg w) = TIssued /\ 0 < ls_worth w a
  | KWhite _ _ _, RFail => c_lstok (w_cfg w) = TIssued
  | _, _ => True
  end.
