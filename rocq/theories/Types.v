(** Types.v — storage, ledgers and the world state.

    The setter functions ([set_...]) are plain record updates: each replaces
    one field and keeps the others. *)
From Verif Require Export Base.

(** Address-keyed ledgers default to zero. *)
Definition amt_at `{Countable K} (m : gmap K N) (k : K) : N := default 0 (m !! k).

(** DelegationContractData, LS/structs.rs:6-17.
    p_total = total_staked, p_cap = delegation_contract_cap,
    p_staked = total_staked_from_ls_contract,
    p_unstaked = total_unstaked_from_ls_contract,
    p_pst = pending_staking_callback_amount,
    p_pun = pending_unstaking_callback_amount. *)
Record prov := Prov {
  p_admin : addr;
  p_total : N;
  p_cap : N;
  p_nodes : N;
  p_apy : N;
  p_staked : N;
  p_unstaked : N;
  p_elig : bool;
  p_pst : N;
  p_pun : N
}.

(** assignment to p_admin, LS/structs.rs:7 *)
Definition set_p_admin (v : addr) (x : prov) : prov :=
  Prov v (p_total x) (p_cap x) (p_nodes x) (p_apy x) (p_staked x) (p_unstaked x) (p_elig x) (p_pst x) (p_pun x).
(** assignment to p_total, LS/structs.rs:8 *)
Definition set_p_total (v : N) (x : prov) : prov :=
  Prov (p_admin x) v (p_cap x) (p_nodes x) (p_apy x) (p_staked x) (p_unstaked x) (p_elig x) (p_pst x) (p_pun x).
(** assignment to p_cap, LS/structs.rs:9 *)
Definition set_p_cap (v : N) (x : prov) : prov :=
  Prov (p_admin x) (p_total x) v (p_nodes x) (p_apy x) (p_staked x) (p_unstaked x) (p_elig x) (p_pst x) (p_pun x).
(** assignment to p_nodes, LS/structs.rs:10 *)
Definition set_p_nodes (v : N) (x : prov) : prov :=
  Prov (p_admin x) (p_total x) (p_cap x) v (p_apy x) (p_staked x) (p_unstaked x) (p_elig x) (p_pst x) (p_pun x).
(** assignment to p_apy, LS/structs.rs:11 *)
Definition set_p_apy (v : N) (x : prov) : prov :=
  Prov (p_admin x) (p_total x) (p_cap x) (p_nodes x) v (p_staked x) (p_unstaked x) (p_elig x) (p_pst x) (p_pun x).
(** assignment to p_staked, LS/structs.rs:12 *)
Definition set_p_staked (v : N) (x : prov) : prov :=
  Prov (p_admin x) (p_total x) (p_cap x) (p_nodes x) (p_apy x) v (p_unstaked x) (p_elig x) (p_pst x) (p_pun x).
(** assignment to p_unstaked, LS/structs.rs:13 *)
Definition set_p_unstaked (v : N) (x : prov) : prov :=
  Prov (p_admin x) (p_total x) (p_cap x) (p_nodes x) (p_apy x) (p_staked x) v (p_elig x) (p_pst x) (p_pun x).
(** assignment to p_elig, LS/structs.rs:14 *)
Definition set_p_elig (v : bool) (x : prov) : prov :=
  Prov (p_admin x) (p_total x) (p_cap x) (p_nodes x) (p_apy x) (p_staked x) (p_unstaked x) v (p_pst x) (p_pun x).
(** assignment to p_pst, LS/structs.rs:15 *)
Definition set_p_pst (v : N) (x : prov) : prov :=
  Prov (p_admin x) (p_total x) (p_cap x) (p_nodes x) (p_apy x) (p_staked x) (p_unstaked x) (p_elig x) v (p_pun x).
(** assignment to p_pun, LS/structs.rs:16 *)
Definition set_p_pun (v : N) (x : prov) : prov :=
  Prov (p_admin x) (p_total x) (p_cap x) (p_nodes x) (p_apy x) (p_staked x) (p_unstaked x) (p_elig x) (p_pst x) v.

(** get_total_amount_with_pending_callbacks, LS/structs.rs:20-23. *)
Definition avail (p : prov) : res N := sub (p_staked p + p_pst p) (p_pun p).

(** ScoringConfig, LS/structs.rs:89-107. *)
Record scfg := Scfg {
  k_min_nodes : N;
  k_max_nodes : N;
  k_min_apy : N;
  k_max_apy : N;
  k_stake_w : N;
  k_apy_w : N;
  k_nodes_w : N;
  k_max_score : N;
  k_exp : N;
  k_apy_mul : N
}.

(** Default for ScoringConfig, LS/structs.rs:109-124. *)
Definition scfg_default : scfg := Scfg 1 100 500 1000 40 50 10 1000 3 4.

(** DelegatorSelection, LS/structs.rs:46-50 (d_space = None: unlimited). *)
Record dsel := Dsel {
  d_addr : addr;
  d_amt : N;
  d_space : option N
}.

(** DelegationContractSelectionInfo, LS/structs.rs:70-78
    (i_avail = total_staked_from_ls_contract of the selection info). *)
Record sinfo := Sinfo {
  i_addr : addr;
  i_score : N;
  i_total : N;
  i_apy : N;
  i_nodes : N;
  i_avail : N;
  i_space : option N
}.

(** assignment to i_score, LS/structs.rs:72 *)
Definition set_i_score (v : N) (x : sinfo) : sinfo :=
  Sinfo (i_addr x) v (i_total x) (i_apy x) (i_nodes x) (i_avail x) (i_space x).

(** State of a FungibleTokenMapper / NonFungibleTokenMapper of the framework
    (LS/storage/mod.rs:53,73).  The identifier itself is not modelled: there is
    one LS token and one unstake token, and ESDT identifiers are unique. *)
Inductive tokst := TNotSet | TPending | TIssued.
Global Instance tokst_eq_dec : EqDecision tokst.
Proof. solve_decision. Defined.

(** The seven storage values that StorageCache writes back when it is dropped
    (LS/contexts/base.rs:46-62; storage keys LS/storage/mod.rs:55-85):
    supply = lsTokenSupply, reserve = virtualEgldReserve, fees_res = feesReserve,
    withdrawn = totalWithdrawnEgld, pend = pendingEgld,
    pfu = pendingEgldForUnstake, pfb = pendingEgldForUnbond. *)
Record pool := Pool {
  supply : N;
  reserve : N;
  fees_res : N;
  withdrawn : N;
  pend : N;
  pfu : N;
  pfb : N
}.

(** assignment to supply, LS/storage/mod.rs:55-57 *)
Definition set_supply (v : N) (x : pool) : pool :=
  Pool v (reserve x) (fees_res x) (withdrawn x) (pend x) (pfu x) (pfb x).
(** assignment to reserve, LS/storage/mod.rs:59-61 *)
Definition set_reserve (v : N) (x : pool) : pool :=
  Pool (supply x) v (fees_res x) (withdrawn x) (pend x) (pfu x) (pfb x).
(** assignment to fees_res, LS/storage/mod.rs:63-65 *)
Definition set_fees_res (v : N) (x : pool) : pool :=
  Pool (supply x) (reserve x) v (withdrawn x) (pend x) (pfu x) (pfb x).
(** assignment to withdrawn, LS/storage/mod.rs:67-69 *)
Definition set_withdrawn (v : N) (x : pool) : pool :=
  Pool (supply x) (reserve x) (fees_res x) v (pend x) (pfu x) (pfb x).
(** assignment to pend, LS/storage/mod.rs:75-77 *)
Definition set_pend (v : N) (x : pool) : pool :=
  Pool (supply x) (reserve x) (fees_res x) (withdrawn x) v (pfu x) (pfb x).
(** assignment to pfu, LS/storage/mod.rs:79-81 *)
Definition set_pfu (v : N) (x : pool) : pool :=
  Pool (supply x) (reserve x) (fees_res x) (withdrawn x) (pend x) v (pfb x).
(** assignment to pfb, LS/storage/mod.rs:83-85 *)
Definition set_pfb (v : N) (x : pool) : pool :=
  Pool (supply x) (reserve x) (fees_res x) (withdrawn x) (pend x) (pfu x) v.

(** Configuration storage, LS/storage/mod.rs:23-53,71-73,91-101 and
    LS/migrate.rs:95-97: state (true = Active), fees, accumulatorContract,
    roundsPerEpoch, minimumRounds, maxDelegationAddresses,
    maxSelectedProviders, unbondPeriod, scoringConfig, migrationScAddress,
    managers (as a duplicate-free list; the order of the UnorderedSetMapper is
    not modelled), lsTokenId, unstakeTokenId. *)
Record cfg := Cfg {
  c_active : bool;
  c_fees : N;
  c_acc : addr;
  c_rpe : N;
  c_minr : N;
  c_maxaddr : N;
  c_maxsel : N;
  c_unbond : N;
  c_score : option scfg;
  c_migr : option addr;
  c_mgrs : list addr;
  c_lstok : tokst;
  c_usttok : tokst
}.

(** assignment to c_active, LS/storage/mod.rs:47-49 *)
Definition set_c_active (v : bool) (x : cfg) : cfg :=
  Cfg v (c_fees x) (c_acc x) (c_rpe x) (c_minr x) (c_maxaddr x) (c_maxsel x) (c_unbond x) (c_score x) (c_migr x) (c_mgrs x) (c_lstok x) (c_usttok x).
(** assignment to c_fees, LS/storage/mod.rs:31-33 *)
Definition set_c_fees (v : N) (x : cfg) : cfg :=
  Cfg (c_active x) v (c_acc x) (c_rpe x) (c_minr x) (c_maxaddr x) (c_maxsel x) (c_unbond x) (c_score x) (c_migr x) (c_mgrs x) (c_lstok x) (c_usttok x).
(** assignment to c_acc, LS/storage/mod.rs:35-37 *)
Definition set_c_acc (v : addr) (x : cfg) : cfg :=
  Cfg (c_active x) (c_fees x) v (c_rpe x) (c_minr x) (c_maxaddr x) (c_maxsel x) (c_unbond x) (c_score x) (c_migr x) (c_mgrs x) (c_lstok x) (c_usttok x).
(** assignment to c_rpe, LS/storage/mod.rs:39-41 *)
Definition set_c_rpe (v : N) (x : cfg) : cfg :=
  Cfg (c_active x) (c_fees x) (c_acc x) v (c_minr x) (c_maxaddr x) (c_maxsel x) (c_unbond x) (c_score x) (c_migr x) (c_mgrs x) (c_lstok x) (c_usttok x).
(** assignment to c_minr, LS/storage/mod.rs:43-45 *)
Definition set_c_minr (v : N) (x : cfg) : cfg :=
  Cfg (c_active x) (c_fees x) (c_acc x) (c_rpe x) v (c_maxaddr x) (c_maxsel x) (c_unbond x) (c_score x) (c_migr x) (c_mgrs x) (c_lstok x) (c_usttok x).
(** assignment to c_maxaddr, LS/storage/mod.rs:91-93 *)
Definition set_c_maxaddr (v : N) (x : cfg) : cfg :=
  Cfg (c_active x) (c_fees x) (c_acc x) (c_rpe x) (c_minr x) v (c_maxsel x) (c_unbond x) (c_score x) (c_migr x) (c_mgrs x) (c_lstok x) (c_usttok x).
(** assignment to c_maxsel, LS/storage/mod.rs:95-97 *)
Definition set_c_maxsel (v : N) (x : cfg) : cfg :=
  Cfg (c_active x) (c_fees x) (c_acc x) (c_rpe x) (c_minr x) (c_maxaddr x) v (c_unbond x) (c_score x) (c_migr x) (c_mgrs x) (c_lstok x) (c_usttok x).
(** assignment to c_unbond, LS/storage/mod.rs:99-101 *)
Definition set_c_unbond (v : N) (x : cfg) : cfg :=
  Cfg (c_active x) (c_fees x) (c_acc x) (c_rpe x) (c_minr x) (c_maxaddr x) (c_maxsel x) v (c_score x) (c_migr x) (c_mgrs x) (c_lstok x) (c_usttok x).
(** assignment to c_score, LS/storage/mod.rs:27-29 *)
Definition set_c_score (v : option scfg) (x : cfg) : cfg :=
  Cfg (c_active x) (c_fees x) (c_acc x) (c_rpe x) (c_minr x) (c_maxaddr x) (c_maxsel x) (c_unbond x) v (c_migr x) (c_mgrs x) (c_lstok x) (c_usttok x).
(** assignment to c_migr, LS/migrate.rs:95-97 *)
Definition set_c_migr (v : option addr) (x : cfg) : cfg :=
  Cfg (c_active x) (c_fees x) (c_acc x) (c_rpe x) (c_minr x) (c_maxaddr x) (c_maxsel x) (c_unbond x) (c_score x) v (c_mgrs x) (c_lstok x) (c_usttok x).
(** assignment to c_mgrs, LS/storage/mod.rs:23-25 *)
Definition set_c_mgrs (v : list addr) (x : cfg) : cfg :=
  Cfg (c_active x) (c_fees x) (c_acc x) (c_rpe x) (c_minr x) (c_maxaddr x) (c_maxsel x) (c_unbond x) (c_score x) (c_migr x) v (c_lstok x) (c_usttok x).
(** assignment to c_lstok, LS/storage/mod.rs:51-53 *)
Definition set_c_lstok (v : tokst) (x : cfg) : cfg :=
  Cfg (c_active x) (c_fees x) (c_acc x) (c_rpe x) (c_minr x) (c_maxaddr x) (c_maxsel x) (c_unbond x) (c_score x) (c_migr x) (c_mgrs x) v (c_usttok x).
(** assignment to c_usttok, LS/storage/mod.rs:71-73 *)
Definition set_c_usttok (v : tokst) (x : cfg) : cfg :=
  Cfg (c_active x) (c_fees x) (c_acc x) (c_rpe x) (c_minr x) (c_maxaddr x) (c_maxsel x) (c_unbond x) (c_score x) (c_migr x) (c_mgrs x) (c_lstok x) v.

(** Asynchronous calls registered with register_promise / async_call, with the
    arguments captured by the callback closure. *)
Inductive call :=
| KDeleg (c : addr) (amt : N)               (* manage.rs:86-97, add_liquidity_callback *)
| KUndel (c : addr) (amt : N)               (* manage.rs:163-173, remove_liquidity_callback *)
| KWithd (c : addr)                         (* manage.rs:198-205, withdraw_tokens_callback *)
| KClaim (l : list addr)                    (* manage.rs:232-239, claim_rewards_callback *)
| KWhite (c : addr) (amt : N) (who : addr)  (* delegation.rs:82-96, whitelist_delegation_contract_callback *)
| KIssue (ls : bool) (who : addr) (amt : N)  (* config.rs:20-26 (ls=true), 39-46 (ls=false); default issue callback of the framework *).

(** Outcome of an asynchronous call at its destination. *)
Inductive reply := RFail | RDone (v : N).

(** EGLD that comes back together with the callback: the full value of a failed
    call (MultiversX returns it), the EGLD released by withdraw, the rewards
    sent by the delegation manager (trusted: it sends what it reports, as in
    delegation-manager-mock/src/delegation_manager.rs:23-26). *)
Definition attached (k : call) (r : reply) : N :=
  match k, r with
  | KDeleg _ a, RFail => a
  | KWhite _ a _, RFail => a
  | KIssue _ _ a, RFail => a
  | KWithd _, RDone v => v
  | KClaim _, RDone v => v
  | _, _ => 0
  end.

(** Observable effects of one step. The event payload of LS/events.rs:7-20 is
    represented by the pool values and the epoch; token id, block and timestamp
    are not modelled. *)
Inductive eff :=
| XEgld (to : addr) (amt : N)                 (* direct EGLD transfer *)
| XLs (to : addr) (amt : N)                   (* LS token transfer *)
| XUst (to : addr) (nonce amt : N)            (* unstake token transfer *)
| XDeposit (to : addr) (amt : N)              (* accumulator deposit, manage.rs:251-256 *)
| XCall (k : call)                            (* promise registered *)
| EvAdd (amt : N) (who : addr) (p : pool) (epoch : N)     (* add_liquidity *)
| EvRemove (amt : N) (who : addr) (p : pool) (epoch : N)  (* remove_liquidity *)
| EvWithdrawPending (amt : N) (c who : addr) (p : pool) (epoch : N) (* withdraw_pending *)
| EvRevenue (fees : N) (epoch : N)                        (* protocol_revenue *)
| EvClaim (amt : N) (who : addr) (p : pool) (epoch : N)   (* claim_rewards *)
| EvGeneral (who : addr) (p : pool) (epoch : N)           (* general_liquidity_event *).

(** The world: contract storage, then the chain state the contract talks to.
    - w_cfg, w_pool: see above; w_dl / w_ul: delegationAddressesMap and
      unDelegationAddressesMap (SetMapper = insertion-ordered set,
      LS/storage/mod.rs:8-14); w_pv: delegationContract (16-21); w_un:
      unstakeTokenNonce by epoch (87-89; absent = empty);
    - w_egld: EGLD balance of the contract; w_ls: LS token balances of all
      accounts; w_ust: unstake token balances by (nonce, account); w_attr:
      attributes (unstake_epoch, unbond_epoch) of each nonce
      (LS/structs.rs:28-31); w_last: last created nonce; w_epoch: block epoch;
      w_owner: owner of the contract;
    - w_calls: asynchronous calls not yet executed at their destination; w_res:
      executed calls whose callback has not run yet, in execution order; w_live:
      what each provider really holds for the contract: (active stake,
      un-delegated but not withdrawn);
    - w_log: effects of the last step. *)
Record world := World {
  w_cfg : cfg;
  w_pool : pool;
  w_dl : list addr;
  w_ul : list addr;
  w_pv : gmap addr prov;
  w_un : gmap N N;
  w_egld : N;
  w_ls : gmap addr N;
  w_ust : gmap (N * addr) N;
  w_attr : gmap N (N * N);
  w_last : N;
  w_epoch : N;
  w_owner : addr;
  w_calls : list call;
  w_res : list (call * reply);
  w_live : gmap addr (N * N);
  w_log : list eff
}.

(** assignment to w_cfg, LS/storage/mod.rs:23-101 (configuration values) *)
Definition set_cfg (v : cfg) (x : world) : world :=
  World v (w_pool x) (w_dl x) (w_ul x) (w_pv x) (w_un x) (w_egld x) (w_ls x) (w_ust x) (w_attr x) (w_last x) (w_epoch x) (w_owner x) (w_calls x) (w_res x) (w_live x) (w_log x).
(** assignment to w_pool, LS/storage/mod.rs:55-85 (pool values) *)
Definition set_pool (v : pool) (x : world) : world :=
  World (w_cfg x) v (w_dl x) (w_ul x) (w_pv x) (w_un x) (w_egld x) (w_ls x) (w_ust x) (w_attr x) (w_last x) (w_epoch x) (w_owner x) (w_calls x) (w_res x) (w_live x) (w_log x).
(** assignment to w_dl, LS/storage/mod.rs:8-10 *)
Definition set_dl (v : list addr) (x : world) : world :=
  World (w_cfg x) (w_pool x) v (w_ul x) (w_pv x) (w_un x) (w_egld x) (w_ls x) (w_ust x) (w_attr x) (w_last x) (w_epoch x) (w_owner x) (w_calls x) (w_res x) (w_live x) (w_log x).
(** assignment to w_ul, LS/storage/mod.rs:12-14 *)
Definition set_ul (v : list addr) (x : world) : world :=
  World (w_cfg x) (w_pool x) (w_dl x) v (w_pv x) (w_un x) (w_egld x) (w_ls x) (w_ust x) (w_attr x) (w_last x) (w_epoch x) (w_owner x) (w_calls x) (w_res x) (w_live x) (w_log x).
(** assignment to w_pv, LS/storage/mod.rs:16-21 *)
Definition set_pv (v : gmap addr prov) (x : world) : world :=
  World (w_cfg x) (w_pool x) (w_dl x) (w_ul x) v (w_un x) (w_egld x) (w_ls x) (w_ust x) (w_attr x) (w_last x) (w_epoch x) (w_owner x) (w_calls x) (w_res x) (w_live x) (w_log x).
(** assignment to w_un, LS/storage/mod.rs:87-89 *)
Definition set_un (v : gmap N N) (x : world) : world :=
  World (w_cfg x) (w_pool x) (w_dl x) (w_ul x) (w_pv x) v (w_egld x) (w_ls x) (w_ust x) (w_attr x) (w_last x) (w_epoch x) (w_owner x) (w_calls x) (w_res x) (w_live x) (w_log x).
(** assignment to w_egld, chain state, see the record above *)
Definition set_egld (v : N) (x : world) : world :=
  World (w_cfg x) (w_pool x) (w_dl x) (w_ul x) (w_pv x) (w_un x) v (w_ls x) (w_ust x) (w_attr x) (w_last x) (w_epoch x) (w_owner x) (w_calls x) (w_res x) (w_live x) (w_log x).
(** assignment to w_ls, chain state, see the record above *)
Definition set_ls (v : gmap addr N) (x : world) : world :=
  World (w_cfg x) (w_pool x) (w_dl x) (w_ul x) (w_pv x) (w_un x) (w_egld x) v (w_ust x) (w_attr x) (w_last x) (w_epoch x) (w_owner x) (w_calls x) (w_res x) (w_live x) (w_log x).
(** assignment to w_ust, chain state, see the record above *)
Definition set_ust (v : gmap (N * addr) N) (x : world) : world :=
  World (w_cfg x) (w_pool x) (w_dl x) (w_ul x) (w_pv x) (w_un x) (w_egld x) (w_ls x) v (w_attr x) (w_last x) (w_epoch x) (w_owner x) (w_calls x) (w_res x) (w_live x) (w_log x).
(** assignment to w_attr, chain state, see the record above *)
Definition set_attr (v : gmap N (N * N)) (x : world) : world :=
  World (w_cfg x) (w_pool x) (w_dl x) (w_ul x) (w_pv x) (w_un x) (w_egld x) (w_ls x) (w_ust x) v (w_last x) (w_epoch x) (w_owner x) (w_calls x) (w_res x) (w_live x) (w_log x).
(** assignment to w_last, chain state, see the record above *)
Definition set_last (v : N) (x : world) : world :=
  World (w_cfg x) (w_pool x) (w_dl x) (w_ul x) (w_pv x) (w_un x) (w_egld x) (w_ls x) (w_ust x) (w_attr x) v (w_epoch x) (w_owner x) (w_calls x) (w_res x) (w_live x) (w_log x).
(** assignment to w_epoch, chain state, see the record above *)
Definition set_epoch (v : N) (x : world) : world :=
  World (w_cfg x) (w_pool x) (w_dl x) (w_ul x) (w_pv x) (w_un x) (w_egld x) (w_ls x) (w_ust x) (w_attr x) (w_last x) v (w_owner x) (w_calls x) (w_res x) (w_live x) (w_log x).
(** assignment to w_owner, chain state, see the record above *)
Definition set_owner (v : addr) (x : world) : world :=
  World (w_cfg x) (w_pool x) (w_dl x) (w_ul x) (w_pv x) (w_un x) (w_egld x) (w_ls x) (w_ust x) (w_attr x) (w_last x) (w_epoch x) v (w_calls x) (w_res x) (w_live x) (w_log x).
(** assignment to w_calls, chain state, see the record above *)
Definition set_calls (v : list call) (x : world) : world :=
  World (w_cfg x) (w_pool x) (w_dl x) (w_ul x) (w_pv x) (w_un x) (w_egld x) (w_ls x) (w_ust x) (w_attr x) (w_last x) (w_epoch x) (w_owner x) v (w_res x) (w_live x) (w_log x).
(** assignment to w_res, chain state, see the record above *)
Definition set_res (v : list (call * reply)) (x : world) : world :=
  World (w_cfg x) (w_pool x) (w_dl x) (w_ul x) (w_pv x) (w_un x) (w_egld x) (w_ls x) (w_ust x) (w_attr x) (w_last x) (w_epoch x) (w_owner x) (w_calls x) v (w_live x) (w_log x).
(** assignment to w_live, chain state, see the record above *)
Definition set_live (v : gmap addr (N * N)) (x : world) : world :=
  World (w_cfg x) (w_pool x) (w_dl x) (w_ul x) (w_pv x) (w_un x) (w_egld x) (w_ls x) (w_ust x) (w_attr x) (w_last x) (w_epoch x) (w_owner x) (w_calls x) (w_res x) v (w_log x).
(** assignment to w_log, chain state, see the record above *)
Definition set_log (v : list eff) (x : world) : world :=
  World (w_cfg x) (w_pool x) (w_dl x) (w_ul x) (w_pv x) (w_un x) (w_egld x) (w_ls x) (w_ust x) (w_attr x) (w_last x) (w_epoch x) (w_owner x) (w_calls x) (w_res x) (w_live x) v.

(** LS token balance of an account (chain state). *)
Definition lbal (w : world) (a : addr) : N := amt_at (w_ls w) a.
(** Balance of unstake token nonce [n] of an account (chain state). *)
Definition ubal (w : world) (n : N) (a : addr) : N := amt_at (w_ust w) (n, a).

(** ESDT payment attached to a transaction (EsdtTokenPayment of the framework,
    read in LS/lib.rs:124,147). *)
Inductive tok := TokLs | TokUst (nonce : N) | TokOther.
Record pay := Pay { y_tok : tok; y_amt : N }.

(** Gas, token identifiers, block numbers and the EGLD balances of users are not
    modelled. *)
