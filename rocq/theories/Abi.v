(** Abi.v — the calls, answers and events of the contract as bytes: the functions exported
    by LS/../wasm/src/lib.rs:20-88, the decoding of their arguments, the answers of the
    views and the topics of LS/events.rs. *)
From Coq Require Import String.
From Verif Require Export Storage World.
Open Scope N_scope.

(** ** Arguments *)
(** A number given as argument to a parameter of [n] bytes (u64, usize): any bytes whose
    value fits, LS/config.rs:74-101, LS/delegation.rs:35-36 *)
Definition arg_int (n : nat) (l : bytes) : option N := if num l <? 256 ^ N.of_nat n then Some (num l) else None.
(** BigUint: any bytes, LS/lib.rs:65 *)
Definition arg_big (l : bytes) : option N := Some (num l).
(** bool: the number 0 or 1, LS/delegation.rs:121 *)
Definition arg_bool (l : bytes) : option bool :=
  if num l =? 0 then Some false else if num l =? 1 then Some true else None.
(** the next argument, read with [get], LS/delegation.rs:29-37 *)
Definition arg {A B : Type} (get : bytes -> option A) (f : A -> list bytes -> option B) (l : list bytes) : option B :=
  match l with b :: r => match get b with Some a => f a r | None => None end | [] => None end.
(** no further arguments, LS/lib.rs:103 *)
Definition no_more {B : Type} (b : B) (l : list bytes) : option B := match l with [] => Some b | _ :: _ => None end.
(** at most one further argument (OptionalValue), LS/manage.rs:33,110 *)
Definition at_most_one {A B : Type} (get : bytes -> option A) (f : option A -> B) (l : list bytes) : option B :=
  match l with [] => Some (f None) | _ => arg get (fun a => no_more (f (Some a))) l end.
(** any number of further arguments (MultiValueEncoded), LS/config.rs:105 *)
Fixpoint any_number {A B : Type} (get : bytes -> option A) (f : list A -> B) (l : list bytes) : option B :=
  match l with
  | [] => Some (f [])
  | b :: r => match get b with Some a => any_number get (fun x => f (a :: x)) r | None => None end
  end.

(** ** Endpoints *)
(** name and parameters; the flag of [ClaimFees] is not an argument but the outcome of the
    accumulator's deposit. The names of tokens (LS/config.rs:15-16,34-35) are any bytes. *)
Definition endpoints (deposit_ok : bool) : list (string * (list bytes -> option endpoint)) :=
  [("delegate", no_more Delegate);                                                        (* LS/lib.rs:102-103 *)
   ("unDelegate", no_more UnDelegate);                                                    (* LS/lib.rs:120-121 *)
   ("withdraw", no_more Withdraw);                                                        (* LS/lib.rs:141-142 *)
   ("registerLsToken", arg Some (fun _ => arg Some (fun _ => arg (arg_int 4) (fun _ => no_more RegisterLsToken)))); (* LS/config.rs:12-18 *)
   ("registerUnstakeToken", arg Some (fun _ => arg Some (fun _ => arg (arg_int 4) (fun _ => no_more RegisterUnstakeToken)))); (* LS/config.rs:31-37 *)
   ("setStateActive", no_more SetStateActive);                                            (* LS/config.rs:50-51 *)
   ("setStateInactive", no_more SetStateInactive);                                        (* LS/config.rs:56-57 *)
   ("setAccumulatorContract", arg get_addr (fun a => no_more (SetAccumulator a)));        (* LS/config.rs:62-63 *)
   ("setFees", arg arg_big (fun f => no_more (SetFees f)));                               (* LS/config.rs:68-69 *)
   ("setMinimumRounds", arg (arg_int 8) (fun r => no_more (SetMinimumRounds r)));         (* LS/config.rs:74-75 *)
   ("setMaxAddresses", arg (arg_int 4) (fun n => no_more (SetMaxAddresses n)));           (* LS/config.rs:80-81 *)
   ("setMaxSelectedProviders", arg arg_big (fun n => no_more (SetMaxSelected n)));        (* LS/config.rs:87-88 *)
   ("setUnbondPeriod", arg (arg_int 8) (fun p => no_more (SetUnbondPeriod p)));           (* LS/config.rs:98-99 *)
   ("addManagers", any_number get_addr AddManagers);                                      (* LS/config.rs:104-105 *)
   ("removeManager", arg get_addr (fun a => no_more (RemoveManager a)));                  (* LS/config.rs:110-111 *)
   ("setScoringConfig", arg get_scoring (fun s => no_more (SetScoringConfig s)));         (* LS/config.rs:115-116 *)
   ("delegatePending", at_most_one arg_big DelegatePending);                              (* LS/manage.rs:32-33 *)
   ("unDelegatePending", at_most_one arg_big UnDelegatePending);                          (* LS/manage.rs:109-110 *)
   ("withdrawPending", arg get_addr (fun c => no_more (WithdrawPending c)));              (* LS/manage.rs:185-186 *)
   ("claimRewards", no_more ClaimRewards);                                                (* LS/manage.rs:212-213 *)
   ("claimFees", no_more (ClaimFees deposit_ok));                                         (* LS/manage.rs:242-243 *)
   ("migrate", arg arg_big (fun a => arg get_addr (fun o => no_more (Migrate a o))));     (* LS/migrate.rs:16-17 *)
   ("migratePending", no_more MigratePending);                                            (* LS/migrate.rs:45-46 *)
   ("addRewards", no_more AddRewards);                                                    (* LS/migrate.rs:72-73 *)
   ("setMigrationScAddress", arg get_addr (fun a => no_more (SetMigrationSc a)));         (* LS/migrate.rs:85-86 *)
   ("whitelistDelegationContract", arg get_addr (fun c => arg get_addr (fun admin => arg arg_big (fun total =>
      arg arg_big (fun cap => arg (arg_int 8) (fun nodes => arg (arg_int 8) (fun apy =>
      no_more (Whitelist c admin total cap nodes apy))))))));                             (* LS/delegation.rs:28-37 *)
   ("changeDelegationContractAdmin", arg get_addr (fun c => arg get_addr (fun admin =>
      no_more (ChangeAdmin c admin))));                                                   (* LS/delegation.rs:99-104 *)
   ("changeDelegationContractParams", arg get_addr (fun c => arg arg_big (fun total => arg arg_big (fun cap =>
      arg (arg_int 8) (fun nodes => arg (arg_int 8) (fun apy => arg arg_bool (fun elig =>
      no_more (ChangeParams c total cap nodes apy elig))))))))                            (* LS/delegation.rs:113-122 *)
  ]%string.

(** What a call asks for, if it is understood. The views change nothing; init and upgrade
    run at deployment and upgrade only; a callback called directly finds no closure of a
    promise and aborts; LS/../wasm/src/lib.rs:20-88 *)
Definition decode_call (deposit_ok : bool) (f : bytes) (args : list bytes) : option endpoint :=
  match List.find (fun x => bool_decide (text (fst x) = f)) (endpoints deposit_ok) with
  | Some x => snd x args
  | None => None
  end.

(** init: the parameters, LS/lib.rs:62-71; [owner] deploys in [epoch] *)
Definition deploy_bytes (owner epoch : N) (args : list bytes) : res world :=
  match arg get_addr (fun acc => arg arg_big (fun fees => arg (arg_int 8) (fun rpe => arg (arg_int 8) (fun minr =>
        arg arg_big (fun maxsel => arg (arg_int 4) (fun maxaddr => arg (arg_int 8) (fun unbond =>
        no_more (deploy owner acc fees rpe minr maxsel maxaddr unbond epoch)))))))) args with
  | Some r => r
  | None => Er EDecode
  end.

(** A transaction as it arrives: a call that is not understood aborts. So does, here, the
    call of a view, which in truth succeeds without effect; LS/../wasm/src/lib.rs:20-88 *)
Definition step_bytes (w : world) (caller egld : N) (pays : list pay) (deposit_ok : bool) (f : bytes) (args : list bytes)
  : world * status :=
  match decode_call deposit_ok f args with
  | Some ep => step w (OTx caller egld pays ep)
  | None => (set_log [] w, SErr EDecode)
  end.

(** ** Answers of the views *)
(** a SingleValueMapper as result: read, then written anew, LS/storage/mod.rs:27-101 *)
Definition answer {A : Type} (get : bytes -> option A) (top : A -> bytes) (e : item) (s : store) : option (list bytes) :=
  match get (s (key e)) with Some a => Some [top a] | None => None end.
(** a collection as result: one value after the other, LS/storage/mod.rs:8-14,23-25 *)
Definition answers (l : option (list addr)) : option (list bytes) :=
  match l with Some l => Some (map top_addr l) | None => None end.
(** a computed number as result, LS/views.rs:11-57 *)
Definition computed (r : res N) : option (list bytes) :=
  match r with Ok x => Some [top_num x] | Er _ => None end.
(** a view without parameters, LS/storage/mod.rs:8-101 *)
Definition plain (v : store -> option (list bytes)) (s : store) (args : list bytes) : option (list bytes) :=
  match args with [] => v s | _ :: _ => None end.
(** the record of a provider, LS/storage/mod.rs:16-21 *)
Definition record_at (c : addr) (s : store) : option prov := get_record (s (key (IRecord c))).
(** StorageCache::new, LS/contexts/base.rs:26-39: the state and the identifier of the token
    must be readable *)
Definition cache_at (s : store) : option pool :=
  let token := s (key ILsToken) in
  match get_state (s (key IState)) with
  | None => None
  | Some _ =>
      if bool_decide (token = []) || bool_decide (token = text "pending") then None
      else Some (Pool (get_num (s (key ISupply))) (get_num (s (key IReserve))) (get_num (s (key IFeesReserve)))
                   (get_num (s (key IWithdrawn))) (get_num (s (key IPending))) (get_num (s (key IPendingUnstake)))
                   (get_num (s (key IPendingUnbond))))
  end.

(** get_exchange_rate, LS/views.rs:23-39 *)
Definition rate_at (s : store) : res N :=
  let supply := get_num (s (key ISupply)) in let reserve := get_num (s (key IReserve)) in
  if supply =? 0 then Ok INITIAL_EXCHANGE_RATE else div (reserve * INITIAL_EXCHANGE_RATE) supply.
(** a view with one parameter, LS/views.rs:11-57, LS/storage/mod.rs:16-21,87-89 *)
Definition with_arg {A : Type} (get : bytes -> option A) (v : A -> store -> option (list bytes)) (s : store) (args : list bytes)
  : option (list bytes) :=
  match args with [b] => match get b with Some a => v a s | None => None end | _ => None end.

(** name and answer; getLsTokenId and getUnstakeTokenId (LS/storage/mod.rs:51,71) are not
    modelled *)
Definition views : list (string * (store -> list bytes -> option (list bytes))) :=
  [("getLsValueForPosition", with_arg arg_big (fun x s =>
      match cache_at s with Some c => computed (get_egld_amount x c) | None => None end));       (* LS/views.rs:11-15 *)
   ("getEgldPositionValue", with_arg arg_big (fun x s =>
      match cache_at s with Some c => computed (get_ls_amount x c) | None => None end));         (* LS/views.rs:17-21 *)
   ("getExchangeRate", plain (fun s => computed (rate_at s)));                                   (* LS/views.rs:23-39 *)
   ("getDelegationContractStakedAmount", with_arg get_addr (fun c s =>
      match record_at c s with Some p => Some [top_num (p_staked p)] | None => None end));       (* LS/views.rs:41-48 *)
   ("getDelegationContractUnstakedAmount", with_arg get_addr (fun c s =>
      match record_at c s with Some p => Some [top_num (p_unstaked p)] | None => None end));     (* LS/views.rs:50-57 *)
   (* LS/storage/mod.rs: *)
   ("getDelegationAddressesList", plain (fun s => answers (sm_items (text "delegationAddressesMap") s)));     (* 8 *)
   ("getUnDelegationAddressesList", plain (fun s => answers (sm_items (text "unDelegationAddressesMap") s))); (* 12 *)
   ("getDelegationContractInfo", with_arg get_addr (fun c s => answer get_record put_prov (IRecord c) s));    (* 16 *)
   ("getManagers", plain (fun s => answers (us_items (text "managers") s)));                                  (* 23 *)
   ("getScoringConfig", plain (answer get_scoring put_scoring IScoring));                                     (* 27 *)
   ("fees", plain (answer arg_big top_num IFees));                                                            (* 31 *)
   ("getAccumulatorContract", plain (answer get_addr top_addr IAccumulator));                                 (* 35 *)
   ("roundsPerEpoch", plain (answer (get_int 8) top_num IRoundsPerEpoch));                                    (* 39 *)
   ("minimumRounds", plain (answer (get_int 8) top_num IMinimumRounds));                                      (* 43 *)
   ("getState", plain (answer get_state top_state IState));                                                   (* 47 *)
   ("getLsSupply", plain (answer arg_big top_num ISupply));                                                   (* 55 *)
   ("getVirtualEgldReserve", plain (answer arg_big top_num IReserve));                                        (* 59 *)
   ("getFeesReserve", plain (answer arg_big top_num IFeesReserve));                                           (* 63 *)
   ("getTotalWithdrawnEgld", plain (answer arg_big top_num IWithdrawn));                                      (* 67 *)
   ("getPendingEGLDForDelegate", plain (answer arg_big top_num IPending));                                    (* 75 *)
   ("getPendingEGLDForUnDelegate", plain (answer arg_big top_num IPendingUnstake));                           (* 79 *)
   ("getPendingEgldForUnbond", plain (answer arg_big top_num IPendingUnbond));                                (* 83 *)
   ("getUnstakeTokenNonce", with_arg (arg_int 8) (fun e s => answer (get_int 8) top_num (INonce e) s));       (* 87 *)
   ("maxDelegationAddresses", plain (answer (get_int 4) top_num IMaxAddresses));                              (* 91 *)
   ("maxSelectedProviders", plain (answer arg_big top_num IMaxSelected));                                     (* 95 *)
   ("unbondPeriod", plain (answer (get_int 8) top_num IUnbondPeriod));                                        (* 99 *)
   ("getMigrationScAddress", plain (answer get_addr top_addr IMigration))                                     (* LS/migrate.rs:95-97 *)
  ]%string.
(** the answer to a query, if there is one, LS/../wasm/src/lib.rs:20-88 *)
Definition query (f : bytes) (args : list bytes) (s : store) : option (list bytes) :=
  match List.find (fun x => bool_decide (text (fst x) = f)) views with
  | Some x => snd x s args
  | None => None
  end.

(** ** Events *)
(** a token identifier inside a structure: the number of bytes, then the bytes, LS/events.rs:9 *)
Definition nest_buf (l : bytes) : bytes := be 4 (N.of_nat (List.length l)) ++ l.
(** ChangeLiquidityEvent, LS/events.rs:5-20; [token], [block] and [time] are the token's
    identifier, the number and the time of the block *)
Definition put_change (token : bytes) (block time who : N) (p : pool) (epoch : N) : bytes :=
  be 32 who ++ nest_buf token ++ nest_num (supply p) ++ nest_num (reserve p) ++ nest_num (fees_res p)
  ++ nest_num (withdrawn p) ++ nest_num (pend p) ++ nest_num (pfu p) ++ nest_num (pfb p)
  ++ be 8 block ++ be 8 epoch ++ be 8 time.
(** The topics of an event: its name, then the indexed arguments, LS/events.rs:156-192;
    nothing for what is not an event *)
Definition topics (token : bytes) (block time : N) (x : eff) : option (list bytes) :=
  let change := put_change token block time in
  match x with
  | EvAdd amt who p epoch => Some [text "add_liquidity"; top_num amt; change who p epoch]
  | EvRemove amt who p epoch => Some [text "remove_liquidity"; top_num amt; change who p epoch]
  | EvWithdrawPending amt c who p epoch => Some [text "withdraw_pending"; top_num amt; change who p epoch; top_addr c]
  | EvClaim amt who p epoch => Some [text "claim_rewards"; top_num amt; change who p epoch]
  | EvRevenue fees epoch => Some [text "protocol_revenue"; top_num fees; top_num epoch]
  | EvGeneral who p epoch => Some [text "general_liquidity_event"; change who p epoch]
  | _ => None
  end.
