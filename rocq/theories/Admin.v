(** Admin.v — provider registration (LS/delegation.rs), configuration
    (LS/config.rs), migration (LS/migrate.rs) and views (LS/views.rs). *)
From Verif Require Export Callback.

(** whitelistDelegationContract, LS/delegation.rs:27-97 *)
Definition whitelist (caller payment contract admin total cap nodes apy : N) (w : world)
  : res world :=
  let* _ := require (N.of_nat (length (w_dl w)) <=? c_maxaddr (w_cfg w)) EMaxDelegationAddresses in
  let* _ := require (N.of_nat (length (w_ul w)) <=? c_maxaddr (w_cfg w)) EMaxUnDelegationAddresses in
  let* _ := is_manager caller w in
  let* _ := require (match w_pv w !! contract with Some _ => false | None => true end)
              EAlreadyWhitelisted in
  let* _ := require ((total <=? cap) || (cap =? 0)) EDelegationCap in
  let* _ := require (MIN_EGLD <=? payment) EMinEgldToDelegate in
  let p := Prov admin total cap nodes apy 0 0 true 0 0 in
  let w1 := set_pv (<[contract := p]> (w_pv w)) w in
  register (KWhite contract payment caller) payment w1.

(** changeDelegationContractAdmin, LS/delegation.rs:99-111 *)
Definition change_admin (caller contract admin : addr) (w : world) : res world :=
  let* _ := require (match w_pv w !! contract with Some _ => true | None => false end)
              ENotWhitelisted in
  let* _ := is_manager caller w in
  upd_prov contract (fun p => Ok (set_p_admin admin p)) w.

(** changeDelegationContractParams, LS/delegation.rs:113-146. [get()] at 125
    aborts on a missing record before the check at 127. *)
Definition change_params (caller contract total cap nodes apy : N) (elig : bool) (w : world)
  : res world :=
  let* old := get_prov (w_pv w) contract in
  let* _ := require ((p_admin old =? caller) || manager_b caller w) EOnlyDelegationAdmin in
  let* _ := require ((total <=? cap) || (cap =? 0)) EDelegationCap in
  upd_prov contract (fun p =>
    Ok (set_p_elig elig (set_p_apy apy (set_p_nodes nodes (set_p_cap cap (set_p_total total p)))))) w.

(** registerLsToken, LS/config.rs:10-27 ([issue_and_set_all_roles] aborts unless
    the mapper is empty, marks it pending and calls the system contract; names
    and decimals are not modelled) *)
Definition register_ls_token (caller payment : N) (w : world) : res world :=
  let* _ := only_owner caller w in
  match c_lstok (w_cfg w) with
  | TNotSet =>
      register (KIssue true caller payment) payment
        (set_cfg (set_c_lstok TPending (w_cfg w)) w)
  | _ => Er ETokenAlreadySet
  end.

(** registerUnstakeToken, LS/config.rs:29-47 *)
Definition register_unstake_token (caller payment : N) (w : world) : res world :=
  let* _ := only_owner caller w in
  match c_usttok (w_cfg w) with
  | TNotSet =>
      register (KIssue false caller payment) payment
        (set_cfg (set_c_usttok TPending (w_cfg w)) w)
  | _ => Er ETokenAlreadySet
  end.

(** Common shape of the owner-only setters, LS/config.rs:49-113 *)
Definition owner_set (caller : addr) (f : cfg -> cfg) (w : world) : res world :=
  let* _ := only_owner caller w in Ok (set_cfg (f (w_cfg w)) w).

(** setStateActive / setStateInactive, LS/config.rs:49-59 *)
Definition set_state (caller : addr) (b : bool) := owner_set caller (set_c_active b).
(** setAccumulatorContract, LS/config.rs:61-65 *)
Definition set_accumulator (caller a : addr) := owner_set caller (set_c_acc a).
(** setFees, LS/config.rs:67-71 *)
Definition set_fees (caller f : N) := owner_set caller (set_c_fees f).
(** setMinimumRounds, LS/config.rs:73-77 *)
Definition set_minimum_rounds (caller r : N) := owner_set caller (set_c_minr r).
(** setMaxAddresses, LS/config.rs:79-84 *)
Definition set_max_addresses (caller n : N) (w : world) : res world :=
  let* _ := only_owner caller w in
  let* _ := require (1 <=? n) EMaxSelectedProviders in
  owner_set caller (set_c_maxaddr n) w.
(** setMaxSelectedProviders, LS/config.rs:86-95 *)
Definition set_max_selected (caller n : N) (w : world) : res world :=
  let* _ := only_owner caller w in
  let* _ := require (1 <=? n) EMaxChangedDelegationAddresses in
  owner_set caller (set_c_maxsel n) w.
(** setUnbondPeriod, LS/config.rs:97-101 *)
Definition set_unbond_period (caller p : N) := owner_set caller (set_c_unbond p).

(** UnorderedSetMapper::extend, LS/config.rs:106: each address is inserted,
    which appends it when absent *)
Fixpoint add_all (l : list addr) (s : list addr) : list addr :=
  match l with [] => s | a :: r => add_all r (set_insert a s) end.
(** addManagers, LS/config.rs:103-107 *)
Definition add_managers (caller : addr) (l : list addr) :=
  owner_set caller (fun g => set_c_mgrs (add_all l (c_mgrs g)) g).
(** removeManager, LS/config.rs:109-113 *)
Definition remove_manager (caller m : addr) :=
  owner_set caller (fun g => set_c_mgrs (swap_remove m (c_mgrs g)) g).

(** setScoringConfig, LS/config.rs:115-123; the u64 additions at 119 wrap
    (release build without overflow checks, liquid-staking/wasm/Cargo.toml) *)
Definition set_scoring_config (caller : addr) (s : scfg) (w : world) : res world :=
  let* _ := is_manager caller w in
  let* _ := require (add64 (add64 (k_stake_w s) (k_apy_w s)) (k_nodes_w s) =? 100)
              EWeightsMustSumTo100 in
  Ok (set_cfg (set_c_score (Some s) (w_cfg w)) w).

(** checks shared by migrate and migratePending, LS/migrate.rs:19-33,48-62 *)
Definition migration_caller (caller : addr) (w : world) : res unit :=
  match c_migr (w_cfg w) with
  | None => Er EDecode
  | Some m =>
      let* _ := require (negb (m =? 0)) EMigrationScNotSet in
      let* _ := require (caller =? m) EMigrationNotAllowed in
      require (is_smart_contract caller) EMigrationNotAllowed
  end.

(** migrate, LS/migrate.rs:16-42 *)
Definition migrate (caller amount original : N) (w : world) : res world :=
  let* c := cache_new w in
  let* _ := migration_caller caller w in
  let* '(m, c1) := pool_add_liquidity amount c in
  let w1 := emit (EvAdd amount original c1 (w_epoch w)) (mint_ls m w) in
  let* w2 := send_ls caller m w1 in
  Ok (commit c1 w2).

(** migratePending, LS/migrate.rs:44-69 *)
Definition migrate_pending (caller payment : N) (w : world) : res world :=
  let* c := cache_new w in
  let* _ := migration_caller caller w in
  let c1 := set_pend (pend c + payment) c in
  Ok (commit c1 (emit (EvGeneral caller c1 (w_epoch w)) w)).

(** addRewards, LS/migrate.rs:71-82 *)
Definition add_rewards (caller payment : N) (w : world) : res world :=
  let* c := cache_new w in
  let c1 := set_pend (pend c + payment) (set_reserve (reserve c + payment) c) in
  Ok (commit c1 (emit (EvGeneral caller c1 (w_epoch w)) w)).

(** setMigrationScAddress, LS/migrate.rs:84-93 *)
Definition set_migration_sc (caller a : addr) (w : world) : res world :=
  let* _ := only_owner caller w in
  let* _ := require (is_smart_contract a) EMigrationNotAllowed in
  owner_set caller (set_c_migr (Some a)) w.

(** getLsValueForPosition, LS/views.rs:11-15 *)
Definition view_ls_value (x : N) (w : world) : res N :=
  let* c := cache_new w in get_egld_amount x c.
(** getEgldPositionValue, LS/views.rs:17-21 *)
Definition view_egld_value (a : N) (w : world) : res N :=
  let* c := cache_new w in get_ls_amount a c.
(** getExchangeRate, LS/views.rs:23-39 *)
Definition view_exchange_rate (w : world) : res N :=
  let s := supply (w_pool w) in
  if s =? 0 then Ok INITIAL_EXCHANGE_RATE
  else div (reserve (w_pool w) * INITIAL_EXCHANGE_RATE) s.
(** getDelegationContractStakedAmount, LS/views.rs:41-48 *)
Definition view_staked (c : addr) (w : world) : res N :=
  let* p := get_prov (w_pv w) c in Ok (p_staked p).
(** getDelegationContractUnstakedAmount, LS/views.rs:50-57 *)
Definition view_unstaked (c : addr) (w : world) : res N :=
  let* p := get_prov (w_pv w) c in Ok (p_unstaked p).
