(** Spec14.v — vocabulary of properties C114 to C116: what a call means, histories of calls
    given as bytes, reading an event. *)
From Coq Require Import String.
From Verif Require Export Abi Spec13.
Open Scope N_scope.

(** ** What a call means *)
(** Bytes as a number: every byte counts 256 times as much as the next one. *)
Fixpoint value (l : bytes) : N :=
  match l with [] => 0 | b :: r => b * 256 ^ N.of_nat (List.length r) + value r end.
(** The formats of the interface: any number, a number of [n] bytes, an address, a bool, *)
Definition is_num (k : N) (b : bytes) : Prop := value b = k.
Definition is_int (n k : N) (b : bytes) : Prop := value b = k /\ k < 256 ^ n.
Definition is_addr (a : addr) (b : bytes) : Prop := List.length b = 32%nat /\ value b = a.
Definition is_bool (x : bool) (b : bytes) : Prop := value b = if x then 1 else 0.
(** ten numbers of eight bytes each, *)
Definition is_scoring (s : scfg) (b : bytes) : Prop :=
  exists parts, b = List.concat parts
    /\ Forall2 (fun k p => List.length p = 8%nat /\ value p = k)
         [k_min_nodes s; k_max_nodes s; k_min_apy s; k_max_apy s; k_stake_w s; k_apy_w s; k_nodes_w s;
          k_max_score s; k_exp s; k_apy_mul s] parts.
(** a name or ticker (anything) and a number of decimals. *)
Definition is_text (b : bytes) : Prop := True.
Definition is_decimals (b : bytes) : Prop := value b < 256 ^ 4.
Definition are (ps : list (bytes -> Prop)) (args : list bytes) : Prop := Forall2 (fun P b => P b) ps args.

(** The name of each endpoint, and the arguments that stand for its parameters. *)
Definition name (ep : endpoint) : string :=
  (match ep with
   | Delegate => "delegate" | UnDelegate => "unDelegate" | Withdraw => "withdraw"
   | DelegatePending _ => "delegatePending" | UnDelegatePending _ => "unDelegatePending"
   | WithdrawPending _ => "withdrawPending" | ClaimRewards => "claimRewards" | ClaimFees _ => "claimFees"
   | Whitelist _ _ _ _ _ _ => "whitelistDelegationContract" | ChangeAdmin _ _ => "changeDelegationContractAdmin"
   | ChangeParams _ _ _ _ _ _ => "changeDelegationContractParams"
   | RegisterLsToken => "registerLsToken" | RegisterUnstakeToken => "registerUnstakeToken"
   | SetStateActive => "setStateActive" | SetStateInactive => "setStateInactive"
   | SetAccumulator _ => "setAccumulatorContract" | SetFees _ => "setFees"
   | SetMinimumRounds _ => "setMinimumRounds" | SetMaxAddresses _ => "setMaxAddresses"
   | SetMaxSelected _ => "setMaxSelectedProviders" | SetUnbondPeriod _ => "setUnbondPeriod"
   | AddManagers _ => "addManagers" | RemoveManager _ => "removeManager" | SetScoringConfig _ => "setScoringConfig"
   | Migrate _ _ => "migrate" | MigratePending => "migratePending" | AddRewards => "addRewards"
   | SetMigrationSc _ => "setMigrationScAddress"
   end)%string.
Definition parameters (ep : endpoint) : list (bytes -> Prop) :=
  match ep with
  | DelegatePending (Some a) | UnDelegatePending (Some a) => [is_num a]
  | WithdrawPending c => [is_addr c]
  | Whitelist c admin total cap nodes apy =>
      [is_addr c; is_addr admin; is_num total; is_num cap; is_int 8 nodes; is_int 8 apy]
  | ChangeAdmin c admin => [is_addr c; is_addr admin]
  | ChangeParams c total cap nodes apy elig =>
      [is_addr c; is_num total; is_num cap; is_int 8 nodes; is_int 8 apy; is_bool elig]
  | RegisterLsToken | RegisterUnstakeToken => [is_text; is_text; is_decimals]
  | SetAccumulator a | RemoveManager a | SetMigrationSc a => [is_addr a]
  | SetFees k | SetMaxSelected k => [is_num k]
  | SetMinimumRounds k | SetUnbondPeriod k => [is_int 8 k]
  | SetMaxAddresses k => [is_int 4 k]
  | AddManagers l => map is_addr l
  | SetScoringConfig s => [is_scoring s]
  | Migrate a who => [is_num a; is_addr who]
  | _ => []
  end.
(** The call of [f] with [args] means [ep], when the accumulator behaves as [deposit_ok]. *)
Definition means (deposit_ok : bool) (f : bytes) (args : list bytes) (ep : endpoint) : Prop :=
  f = text (name ep) /\ are (parameters ep) args
  /\ match ep with ClaimFees b => b = deposit_ok | _ => True end.

(** ** Histories of calls given as bytes *)
Inductive act :=
| ACall (caller egld : N) (pays : list pay) (deposit_ok : bool) (f : bytes) (args : list bytes)
| AOther (o : op).
Definition other (o : op) : Prop := match o with OTx _ _ _ _ => False | _ => True end.
(** Bytes are below 256, and an argument has fewer than 2^32. *)
Definition byte_string (b : bytes) : Prop := Forall (fun k => k < 256) b /\ N.of_nat (List.length b) < 2 ^ 32.
Definition proper (x : act) : Prop :=
  match x with
  | ACall _ _ _ _ _ args => Forall byte_string args
  | AOther o => other o
  end.
Definition act_step (w : world) (x : act) : world * status :=
  match x with
  | ACall caller egld pays deposit_ok f args => step_bytes w caller egld pays deposit_ok f args
  | AOther o => step w o
  end.
Fixpoint act_run (w : world) (xs : list act) : world :=
  match xs with [] => w | x :: r => act_run (fst (act_step w x)) r end.
(** What an action given as bytes is among the actions of the model: a call is the
    transaction it means, and one that means nothing is a transaction that is always
    refused (of the contract with itself as the sender). *)
Definition nonsense : op := OTx SELF 0 [] Delegate.
Definition stands_for (x : act) (o : op) : Prop :=
  match x with
  | ACall caller egld pays deposit_ok f args =>
      (exists ep, means deposit_ok f args ep /\ o = OTx caller egld pays ep)
      \/ ((forall ep, ~ means deposit_ok f args ep) /\ o = nonsense)
  | AOther o' => o = o'
  end.

(** The parameters of an endpoint that can be written as arguments. *)
Definition addresses (ep : endpoint) : list addr :=
  match ep with
  | WithdrawPending a | SetAccumulator a | RemoveManager a | SetMigrationSc a | ChangeParams a _ _ _ _ _ | Migrate _ a => [a]
  | Whitelist c a _ _ _ _ | ChangeAdmin c a => [c; a]
  | AddManagers l => l
  | _ => []
  end.
Definition numbers (ep : endpoint) : list N :=
  match ep with
  | DelegatePending (Some k) | UnDelegatePending (Some k) | SetFees k | SetMaxSelected k | Migrate k _ => [k]
  | Whitelist _ _ t c _ _ | ChangeParams _ t c _ _ _ => [t; c]
  | _ => []
  end.
Definition expressible (ep : endpoint) : Prop :=
  args_ok ep = true /\ Forall (fun a => a < 2 ^ 256) (addresses ep) /\ Forall fits_big (numbers ep).

(** The parameters of init, *)
Definition init_parameters (acc fees rpe minr maxsel maxaddr unbond : N) : list (bytes -> Prop) :=
  [is_addr acc; is_num fees; is_int 8 rpe; is_int 8 minr; is_num maxsel; is_int 4 maxaddr; is_int 8 unbond].

(** ** Answers of the views *)
(** A result that is a number, or that may be missing, as it is sent; an error is none. *)
Definition sent (r : res N) : option (list bytes) := match r with Ok x => Some [top_num x] | Er _ => None end.
Definition sent_opt {A : Type} (top : A -> bytes) (r : option A) : option (list bytes) :=
  match r with Some x => Some [top x] | None => None end.
(** The views answer from the storage [s] what the state [w] of the model says. *)
Definition shows (s : store) (w : world) : Prop :=
  let g := w_cfg w in let k := w_pool w in
  let ask f := query (text f) [] s in let ask1 f b := query (text f) [b] s in
  (ask "getState" = Some [top_state (c_active g)] /\ ask "fees" = Some [top_num (c_fees g)]
  /\ ask "getAccumulatorContract" = Some [top_addr (c_acc g)] /\ ask "roundsPerEpoch" = Some [top_num (c_rpe g)]
  /\ ask "minimumRounds" = Some [top_num (c_minr g)] /\ ask "maxDelegationAddresses" = Some [top_num (c_maxaddr g)]
  /\ ask "maxSelectedProviders" = Some [top_num (c_maxsel g)] /\ ask "unbondPeriod" = Some [top_num (c_unbond g)]
  /\ ask "getScoringConfig" = sent_opt put_scoring (c_score g)
  /\ ask "getMigrationScAddress" = sent_opt top_addr (c_migr g)
  /\ ask "getManagers" = Some (map top_addr (c_mgrs g))
  /\ ask "getLsSupply" = Some [top_num (supply k)] /\ ask "getVirtualEgldReserve" = Some [top_num (reserve k)]
  /\ ask "getFeesReserve" = Some [top_num (fees_res k)] /\ ask "getTotalWithdrawnEgld" = Some [top_num (withdrawn k)]
  /\ ask "getPendingEGLDForDelegate" = Some [top_num (pend k)]
  /\ ask "getPendingEGLDForUnDelegate" = Some [top_num (pfu k)]
  /\ ask "getPendingEgldForUnbond" = Some [top_num (pfb k)]
  /\ ask "getDelegationAddressesList" = Some (map top_addr (w_dl w))
  /\ ask "getUnDelegationAddressesList" = Some (map top_addr (w_ul w))
  /\ ask "getExchangeRate" = sent (view_exchange_rate w)
  /\ (forall x b, is_num x b -> ask1 "getLsValueForPosition" b = sent (view_ls_value x w))
  /\ (forall x b, is_num x b -> ask1 "getEgldPositionValue" b = sent (view_egld_value x w))
  /\ (forall c b, byte_string b -> is_addr c b -> ask1 "getDelegationContractInfo" b = sent_opt put_prov (w_pv w !! c))
  /\ (forall c b, byte_string b -> is_addr c b -> ask1 "getDelegationContractStakedAmount" b = sent (view_staked c w))
  /\ (forall c b, byte_string b -> is_addr c b -> ask1 "getDelegationContractUnstakedAmount" b = sent (view_unstaked c w))
  /\ (forall e b, is_int 8 e b ->
       ask1 "getUnstakeTokenNonce" b = Some [top_num (match w_un w !! e with Some n => n | None => 0 end)]))%string.

(** The names of the views. *)
Definition view_names : list string :=
  ["getLsValueForPosition"; "getEgldPositionValue"; "getExchangeRate"; "getDelegationContractStakedAmount";
   "getDelegationContractUnstakedAmount"; "getDelegationAddressesList"; "getUnDelegationAddressesList";
   "getDelegationContractInfo"; "getManagers"; "getScoringConfig"; "fees"; "getAccumulatorContract"; "roundsPerEpoch";
   "minimumRounds"; "getState"; "getLsSupply"; "getVirtualEgldReserve"; "getFeesReserve"; "getTotalWithdrawnEgld";
   "getPendingEGLDForDelegate"; "getPendingEGLDForUnDelegate"; "getPendingEgldForUnbond"; "getUnstakeTokenNonce";
   "maxDelegationAddresses"; "maxSelectedProviders"; "unbondPeriod"; "getMigrationScAddress"]%string.

(** What a view is asked with: an amount, an address, an epoch, or nothing. *)
Definition asked_with (n : string) (args : list bytes) : Prop :=
  (if existsb (String.eqb n) ["getLsValueForPosition"; "getEgldPositionValue"] then exists b, args = [b]
   else if existsb (String.eqb n) ["getDelegationContractStakedAmount"; "getDelegationContractUnstakedAmount"; "getDelegationContractInfo"]
   then exists a b, args = [b] /\ is_addr a b
   else if String.eqb n "getUnstakeTokenNonce" then exists e b, args = [b] /\ is_int 8 e b
   else args = [])%string.

(** ** Reading an event *)
(** Token identifier: the number of bytes, then the bytes. *)
Definition read_buf : reader bytes := fun l =>
  match read_be 4 l with Some (n, r) => read_bytes (N.to_nat n) r | None => None end.
(** The structure that goes with most events: who; the token; the pool; block, epoch, time. *)
Record change_event := Change { ce_who : addr; ce_token : bytes; ce_pool : pool; ce_block : N; ce_epoch : N; ce_time : N }.
Definition read_change : bytes -> option change_event :=
  whole (rd (read_be 32) (fun who => rd read_buf (fun token =>
    rd read_num (fun a => rd read_num (fun b => rd read_num (fun c => rd read_num (fun d => rd read_num (fun e =>
    rd read_num (fun f => rd read_num (fun g =>
    rd (read_be 8) (fun block => rd (read_be 8) (fun epoch => rd (read_be 8) (fun time =>
    yield (Change who token (Pool a b c d e f g) block epoch time)))))))))))))).
(** An observer reads the name and then the other topics. *)
Inductive told :=
| TChange (name : string) (amount : option N) (contract : option addr) (c : change_event)
| TRevenue (fees epoch : N).
Definition read_event (l : list bytes) : option told :=
  match l with
  | n :: r =>
      if bool_decide (n = text "protocol_revenue") then
        match r with [a; e] => match get_int 8 e with Some k => Some (TRevenue (get_num a) k) | None => None end | _ => None end
      else if bool_decide (n = text "general_liquidity_event") then
        match r with [c] => option_map (TChange "general_liquidity_event" None None) (read_change c) | _ => None end
      else if bool_decide (n = text "withdraw_pending") then
        match r with
        | [a; c; d] => match read_change c, get_addr d with
                       | Some x, Some k => Some (TChange "withdraw_pending" (Some (get_num a)) (Some k) x)
                       | _, _ => None
                       end
        | _ => None
        end
      else
        match List.find (fun s => bool_decide (n = text s)) ["add_liquidity"; "remove_liquidity"; "claim_rewards"]%string, r with
        | Some s, [a; c] => option_map (TChange s (Some (get_num a)) None) (read_change c)
        | _, _ => None
        end
  | [] => None
  end.
(** What an event of the model tells. *)
Definition tells (token : bytes) (block time : N) (x : eff) : option told :=
  let c who p epoch := Change who token p block epoch time in
  (match x with
   | EvAdd amt who p epoch => Some (TChange "add_liquidity" (Some amt) None (c who p epoch))
   | EvRemove amt who p epoch => Some (TChange "remove_liquidity" (Some amt) None (c who p epoch))
   | EvWithdrawPending amt d who p epoch => Some (TChange "withdraw_pending" (Some amt) (Some d) (c who p epoch))
   | EvClaim amt who p epoch => Some (TChange "claim_rewards" (Some amt) None (c who p epoch))
   | EvGeneral who p epoch => Some (TChange "general_liquidity_event" None None (c who p epoch))
   | EvRevenue fees epoch => Some (TRevenue fees epoch)
   | _ => None
   end)%string.
Definition fits_change (who : addr) (p : pool) (epoch : N) : Prop :=
  who < 2 ^ 256 /\ epoch < 2 ^ 64
  /\ Forall fits_big [supply p; reserve p; fees_res p; withdrawn p; pend p; pfu p; pfb p].
Definition fits_event (x : eff) : Prop :=
  match x with
  | EvAdd _ who p epoch | EvRemove _ who p epoch | EvClaim _ who p epoch | EvGeneral who p epoch => fits_change who p epoch
  | EvWithdrawPending _ d who p epoch => d < 2 ^ 256 /\ fits_change who p epoch
  | EvRevenue _ epoch => epoch < 2 ^ 64
  | _ => True
  end.
(** ** An observer who reads bytes *)
(** The topics that the log shows, read one by one; deposits of fees are seen as transfers. *)
Definition learns_bytes (token : bytes) (block time : N) (k : pool) (e : eff) : pool :=
  match topics token block time e with
  | Some l => match read_event l with Some (TChange _ _ _ c) => ce_pool c | _ => k end
  | None => match e with
            | XDeposit _ _ => Pool (supply k) (reserve k) 0 (withdrawn k) (pend k) (pfu k) (pfb k)
            | _ => k
            end
  end.
Fixpoint watched_bytes (token : bytes) (clock : nat -> N * N) (n : nat) (k : pool) (w : world) (os : list op) : pool :=
  match os with
  | [] => k
  | o :: r =>
      let w' := fst (step w o) in
      watched_bytes token clock (S n) (fold_left (learns_bytes token (fst (clock n)) (snd (clock n))) (w_log w') k) w' r
  end.
(** All events of a history fit the format. *)
Fixpoint events_fit (w : world) (os : list op) : Prop :=
  match os with
  | [] => True
  | o :: r => Forall fits_event (w_log (fst (step w o))) /\ events_fit (fst (step w o)) r
  end.

(** ** Functions that are exported but are not endpoints *)
Definition not_endpoints : list string :=
  ["init"; "upgrade"; "callBack"; "remove_liquidity_callback"; "add_liquidity_callback"; "withdraw_tokens_callback";
   "claim_rewards_callback"; "whitelist_delegation_contract_callback"; "getLsTokenId"; "getUnstakeTokenId"]%string
  ++ view_names.
