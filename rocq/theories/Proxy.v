(** Proxy.v — the generated client of the contract, LS/proxy/proxy_liquid_staking.rs (PX in
    the citations): which function each of its methods calls, with which bytes, and how it
    reads the answer. *)
From Coq Require Import String.
From Verif Require Export Abi.
Open Scope N_scope.

(** ** Methods for endpoints *)
(** PX:123-798; the parameters are those of the methods *)
Inductive method :=
| ViaDelegate                                                       (* PX:123-130 *)
| ViaUnDelegate                                                     (* PX:134-141 *)
| ViaWithdraw                                                       (* PX:145-151 *)
| ViaRegisterLsToken (display ticker : bytes) (decimals : N)        (* PX:214-230 *)
| ViaRegisterUnstakeToken (display ticker : bytes) (decimals : N)   (* PX:232-248 *)
| ViaSetStateActive                                                 (* PX:250-257 *)
| ViaSetStateInactive                                               (* PX:259-266 *)
| ViaSetAccumulatorContract (a : addr)                              (* PX:268-279 *)
| ViaSetFees (k : N)                                                (* PX:281-292 *)
| ViaSetMinimumRounds (k : N)                                       (* PX:294-305 *)
| ViaSetMaxAddresses (k : N)                                        (* PX:307-318 *)
| ViaSetMaxSelectedProviders (k : N)                                (* PX:320-331 *)
| ViaSetUnbondPeriod (k : N)                                        (* PX:333-344 *)
| ViaSetManagers (l : list addr)                                    (* PX:346-357 *)
| ViaRemoveManager (a : addr)                                       (* PX:359-370 *)
| ViaSetScoringConfig (s : scfg)                                    (* PX:372-383 *)
| ViaDelegatePending (amount : option N)                            (* PX:391-402 *)
| ViaUnDelegatePending (amount : option N)                          (* PX:411-422 *)
| ViaWithdrawPending (c : addr)                                     (* PX:430-441 *)
| ViaClaimRewards                                                   (* PX:447-454 *)
| ViaDelegateRewards                                                (* PX:459-466 *)
| ViaMigrate (amount : N) (original : addr)                         (* PX:683-697 *)
| ViaMigratePending                                                 (* PX:699-705 *)
| ViaAddRewards                                                     (* PX:707-713 *)
| ViaAddMigrationScAddress (a : addr)                               (* PX:715-726 *)
| ViaWhitelist (c admin : addr) (total cap nodes apy : N)           (* PX:737-762 *)
| ViaChangeAdmin (c admin : addr)                                   (* PX:764-778 *)
| ViaChangeParams (c : addr) (total cap nodes apy : N) (elig : bool). (* PX:780-806 *)

(** ScoringConfig of the client, PX:810-822 *)
Definition proxy_scoring (s : scfg) : bytes :=
  be 8 (k_min_nodes s) ++ be 8 (k_max_nodes s) ++ be 8 (k_min_apy s) ++ be 8 (k_max_apy s)
  ++ be 8 (k_stake_w s) ++ be 8 (k_apy_w s) ++ be 8 (k_nodes_w s)
  ++ be 8 (k_max_score s) ++ be 8 (k_exp s) ++ be 8 (k_apy_mul s).
(** a bool as argument, PX:786,803 *)
Definition top_bool (b : bool) : bytes := top_num (if b then 1 else 0).
(** an OptionalValue as argument: nothing or the value, PX:392,412 *)
Definition top_opt (x : option N) : list bytes := match x with Some k => [top_num k] | None => [] end.

(** the function called and its arguments: raw_call and argument, lines as above *)
Definition proxy_call (m : method) : string * list bytes :=
  (match m with
   | ViaDelegate => ("delegate", [])
   | ViaUnDelegate => ("unDelegate", [])
   | ViaWithdraw => ("withdraw", [])
   | ViaRegisterLsToken d t k => ("registerLsToken", [d; t; top_num k])
   | ViaRegisterUnstakeToken d t k => ("registerUnstakeToken", [d; t; top_num k])
   | ViaSetStateActive => ("setStateActive", [])
   | ViaSetStateInactive => ("setStateInactive", [])
   | ViaSetAccumulatorContract a => ("setAccumulatorContract", [top_addr a])
   | ViaSetFees k => ("setFees", [top_num k])
   | ViaSetMinimumRounds k => ("setMinimumRounds", [top_num k])
   | ViaSetMaxAddresses k => ("setMaxAddresses", [top_num k])
   | ViaSetMaxSelectedProviders k => ("setMaxSelectedProviders", [top_num k])
   | ViaSetUnbondPeriod k => ("setUnbondPeriod", [top_num k])
   | ViaSetManagers l => ("addManagers", map top_addr l)
   | ViaRemoveManager a => ("removeManager", [top_addr a])
   | ViaSetScoringConfig s => ("setScoringConfig", [proxy_scoring s])
   | ViaDelegatePending x => ("delegatePending", top_opt x)
   | ViaUnDelegatePending x => ("unDelegatePending", top_opt x)
   | ViaWithdrawPending c => ("withdrawPending", [top_addr c])
   | ViaClaimRewards => ("claimRewards", [])
   | ViaDelegateRewards => ("delegateRewards", [])
   | ViaMigrate a o => ("migrate", [top_num a; top_addr o])
   | ViaMigratePending => ("migratePending", [])
   | ViaAddRewards => ("addRewards", [])
   | ViaAddMigrationScAddress a => ("setMigrationScAddress", [top_addr a])
   | ViaWhitelist c a t k n y => ("whitelistDelegationContract", [top_addr c; top_addr a; top_num t; top_num k; top_num n; top_num y])
   | ViaChangeAdmin c a => ("changeDelegationContractAdmin", [top_addr c; top_addr a])
   | ViaChangeParams c t k n y e =>
       ("changeDelegationContractParams", [top_addr c; top_num t; top_num k; top_num n; top_num y; top_bool e])
   end)%string.
(** whether a payment may go along: not with .payment(NotPayable), lines as above *)
Definition with_payment (m : method) : bool :=
  match m with
  | ViaDelegate | ViaUnDelegate | ViaWithdraw | ViaRegisterLsToken _ _ _ | ViaRegisterUnstakeToken _ _ _
  | ViaMigratePending | ViaAddRewards | ViaWhitelist _ _ _ _ _ _ => true
  | _ => false
  end.
(** the arguments at deployment, PX:57-88 *)
Definition proxy_init (acc fees rpe minr maxsel maxaddr unbond : N) : list bytes :=
  [top_addr acc; top_num fees; top_num rpe; top_num minr; top_num maxsel; top_num maxaddr; top_num unbond].

(** ** Methods for views *)
(** PX:153-212,468-681,728-735; ls_token and unstake_token (PX:562-569,607-614) are not
    modelled *)
Inductive asking :=
| QLsValueForPosition (x : N)          (* PX:153-164 *)
| QEgldPositionValue (x : N)           (* PX:166-177 *)
| QExchangeRate                        (* PX:179-186 *)
| QStakedAmount (c : addr)             (* PX:188-199 *)
| QUnstakedAmount (c : addr)           (* PX:201-212 *)
| QDelegationAddressesList             (* PX:468-475 *)
| QUnDelegationAddressesList           (* PX:477-484 *)
| QDelegationContractData (c : addr)   (* PX:486-497 *)
| QManagers                            (* PX:499-506 *)
| QScoringConfig                       (* PX:508-515 *)
| QFees                                (* PX:517-524 *)
| QAccumulatorContract                 (* PX:526-533 *)
| QRoundsPerEpoch                      (* PX:535-542 *)
| QMinimumRounds                       (* PX:544-551 *)
| QState                               (* PX:553-560 *)
| QLsTokenSupply                       (* PX:571-578 *)
| QVirtualEgldReserve                  (* PX:580-587 *)
| QRewardsReserve                      (* PX:589-596 *)
| QTotalWithdrawnEgld                  (* PX:598-605 *)
| QPendingEgld                         (* PX:616-623 *)
| QPendingEgldForUnstake               (* PX:625-632 *)
| QPendingEgldForUnbond                (* PX:634-641 *)
| QUnstakeTokenNonce (epoch : N)       (* PX:643-654 *)
| QMaxDelegationAddresses              (* PX:656-663 *)
| QMaxSelectedProviders                (* PX:665-672 *)
| QUnbondPeriod                        (* PX:674-681 *)
| QMigrationScAddress.                 (* PX:728-735 *)

(** the function called and its arguments, lines as above *)
Definition proxy_ask (q : asking) : string * list bytes :=
  (match q with
   | QLsValueForPosition x => ("getLsValueForPosition", [top_num x])
   | QEgldPositionValue x => ("getEgldPositionValue", [top_num x])
   | QExchangeRate => ("getExchangeRate", [])
   | QStakedAmount c => ("getDelegationContractStakedAmount", [top_addr c])
   | QUnstakedAmount c => ("getDelegationContractUnstakedAmount", [top_addr c])
   | QDelegationAddressesList => ("getDelegationAddressesList", [])
   | QUnDelegationAddressesList => ("getUnDelegationAddressesList", [])
   | QDelegationContractData c => ("getDelegationContractInfo", [top_addr c])
   | QManagers => ("getManagers", [])
   | QScoringConfig => ("getScoringConfig", [])
   | QFees => ("fees", [])
   | QAccumulatorContract => ("getAccumulatorContract", [])
   | QRoundsPerEpoch => ("roundsPerEpoch", [])
   | QMinimumRounds => ("minimumRounds", [])
   | QState => ("getState", [])
   | QLsTokenSupply => ("getLsSupply", [])
   | QVirtualEgldReserve => ("getVirtualEgldReserve", [])
   | QRewardsReserve => ("getRewardsReserve", [])
   | QTotalWithdrawnEgld => ("getTotalWithdrawnEgld", [])
   | QPendingEgld => ("getPendingEGLDForDelegate", [])
   | QPendingEgldForUnstake => ("getPendingEGLDForUnDelegate", [])
   | QPendingEgldForUnbond => ("getPendingEgldForUnbond", [])
   | QUnstakeTokenNonce e => ("getUnstakeTokenNonce", [top_num e])
   | QMaxDelegationAddresses => ("maxDelegationAddresses", [])
   | QMaxSelectedProviders => ("maxSelectedProviders", [])
   | QUnbondPeriod => ("unbondPeriod", [])
   | QMigrationScAddress => ("getMigrationScAddress", [])
   end)%string.

(** DelegationContractInfo of the client, PX:846-858: eight fields *)
Record contract_info := Info { i_admin : addr; i_total : N; i_cap : N; i_nodes : N; i_apy : N;
                               i_staked : N; i_unstaked : N; i_eligible : bool }.
(** its decoding, PX:845 *)
Definition read_info : bytes -> option contract_info :=
  whole (rd (read_be 32) (fun admin => rd read_num (fun total => rd read_num (fun cap =>
    rd (read_be 8) (fun nodes => rd (read_be 8) (fun apy => rd read_num (fun staked =>
    rd read_num (fun unstaked => rd read_bool (fun elig => yield (Info admin total cap nodes apy staked unstaked elig)))))))))).
(** ScoringConfig of the client, decoding, PX:810-822 *)
Definition proxy_get_scoring : bytes -> option scfg :=
  whole (rd (read_be 8) (fun a => rd (read_be 8) (fun b => rd (read_be 8) (fun c => rd (read_be 8) (fun d =>
    rd (read_be 8) (fun e => rd (read_be 8) (fun f => rd (read_be 8) (fun g => rd (read_be 8) (fun h =>
    rd (read_be 8) (fun i => rd (read_be 8) (fun j => yield (Scfg a b c d e f g h i j)))))))))))).

(** results of the methods: the types after [Gas] in their signatures, lines as above *)
Inductive result :=
  SNum (k : N) | SAddr (a : addr) | SAddrs (l : list addr) | SScoring (s : scfg) | SState (active : bool)
  | SInfo (i : contract_info).
(** exactly one value, PX:153-735 *)
Definition one_value {A : Type} (get : bytes -> option A) (f : A -> result) (l : list bytes) : option result :=
  match l with [b] => option_map f (get b) | _ => None end.
(** decoding of the result, lines as above *)
Definition proxy_read (q : asking) : list bytes -> option result :=
  match q with
  | QRoundsPerEpoch | QMinimumRounds | QUnstakeTokenNonce _ | QUnbondPeriod => one_value (arg_int 8) SNum
  | QMaxDelegationAddresses => one_value (arg_int 4) SNum
  | QDelegationAddressesList | QUnDelegationAddressesList | QManagers => any_number get_addr SAddrs
  | QDelegationContractData _ => one_value read_info SInfo
  | QScoringConfig => one_value proxy_get_scoring SScoring
  | QState => one_value get_state SState
  | QAccumulatorContract | QMigrationScAddress => one_value get_addr SAddr
  | _ => one_value arg_big SNum
  end.
(** a query through the client: nothing if the call fails or the result cannot be read,
    lines as above *)
Definition through_proxy (q : asking) (s : store) : option result :=
  match query (text (fst (proxy_ask q))) (snd (proxy_ask q)) s with
  | Some l => proxy_read q l
  | None => None
  end.
