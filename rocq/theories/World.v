(** World.v — transactions, environment actions and histories. *)
From Verif Require Export Admin.

(** All state-changing endpoints of the contract with their arguments
    (LS/lib.rs, LS/manage.rs, LS/delegation.rs, LS/config.rs, LS/migrate.rs).
    Arguments that are only passed to the system contract (token names, ticker,
    decimals) are left out. *)
Inductive endpoint :=
| Delegate                                                   (* lib.rs:102 *)
| UnDelegate                                                 (* lib.rs:120 *)
| Withdraw                                                   (* lib.rs:141 *)
| DelegatePending (amount : option N)                        (* manage.rs:32 *)
| UnDelegatePending (amount : option N)                      (* manage.rs:109 *)
| WithdrawPending (c : addr)                                 (* manage.rs:185 *)
| ClaimRewards                                               (* manage.rs:212 *)
| ClaimFees (accumulator_ok : bool)                          (* manage.rs:242; the flag is the outcome of the accumulator's deposit *)
| Whitelist (c admin : addr) (total cap nodes apy : N)       (* delegation.rs:28 *)
| ChangeAdmin (c admin : addr)                               (* delegation.rs:99 *)
| ChangeParams (c : addr) (total cap nodes apy : N) (elig : bool) (* delegation.rs:113 *)
| RegisterLsToken                                            (* config.rs:12 *)
| RegisterUnstakeToken                                       (* config.rs:31 *)
| SetStateActive                                             (* config.rs:50 *)
| SetStateInactive                                           (* config.rs:56 *)
| SetAccumulator (a : addr)                                  (* config.rs:62 *)
| SetFees (f : N)                                            (* config.rs:68 *)
| SetMinimumRounds (r : N)                                   (* config.rs:74 *)
| SetMaxAddresses (n : N)                                    (* config.rs:80 *)
| SetMaxSelected (n : N)                                     (* config.rs:87 *)
| SetUnbondPeriod (p : N)                                    (* config.rs:98 *)
| AddManagers (l : list addr)                                (* config.rs:104 *)
| RemoveManager (a : addr)                                   (* config.rs:110 *)
| SetScoringConfig (s : scfg)                                (* config.rs:115 *)
| Migrate (amount : N) (original : addr)                     (* migrate.rs:16 *)
| MigratePending                                             (* migrate.rs:45 *)
| AddRewards                                                 (* migrate.rs:72 *)
| SetMigrationSc (a : addr).                                 (* migrate.rs:85 *)

(** #[payable] attributes: which payments an endpoint accepts. *)
Inductive payable := PayNone | PayEgld | PayAny.
(** #[payable("EGLD")] at lib.rs:101, delegation.rs:27, config.rs:11,30,
    migrate.rs:44,71; #[payable("*")] at lib.rs:119,140; none elsewhere *)
Definition payable_of (ep : endpoint) : payable :=
  match ep with
  | Delegate | Whitelist _ _ _ _ _ _ | RegisterLsToken | RegisterUnstakeToken
  | MigratePending | AddRewards => PayEgld
  | UnDelegate | Withdraw => PayAny
  | _ => PayNone
  end.

(** Argument decoding of the framework: u64 and usize (32 bits) arguments; the
    endpoint signatures at the lines cited in [endpoint]. *)
Definition args_ok (ep : endpoint) : bool :=
  match ep with
  | Whitelist _ _ _ _ nodes apy => (nodes <? U64) && (apy <? U64)
  | ChangeParams _ _ _ nodes apy _ => (nodes <? U64) && (apy <? U64)
  | SetMinimumRounds r => r <? U64
  | SetMaxAddresses n => n <? U32
  | SetUnbondPeriod p => p <? U64
  | SetScoringConfig s =>
      (k_min_nodes s <? U64) && (k_max_nodes s <? U64) && (k_min_apy s <? U64)
      && (k_max_apy s <? U64) && (k_stake_w s <? U64) && (k_apy_w s <? U64)
      && (k_nodes_w s <? U64) && (k_max_score s <? U64) && (k_exp s <? U64)
      && (k_apy_mul s <? U64)
  | _ => true
  end.

(** Body of an endpoint; see the lines cited in [endpoint]. *)
Definition run_endpoint (ep : endpoint) (caller egld : N) (pays : list pay) (w : world)
  : res world :=
  match ep with
  | Delegate => delegate caller egld w
  | UnDelegate => un_delegate caller pays w
  | Withdraw => withdraw caller pays w
  | DelegatePending a => delegate_pending caller a w
  | UnDelegatePending a => un_delegate_pending caller a w
  | WithdrawPending c => withdraw_pending caller c w
  | ClaimRewards => claim_rewards caller w
  | ClaimFees ok => claim_fees ok w
  | Whitelist c admin total cap nodes apy => whitelist caller egld c admin total cap nodes apy w
  | ChangeAdmin c admin => change_admin caller c admin w
  | ChangeParams c total cap nodes apy elig => change_params caller c total cap nodes apy elig w
  | RegisterLsToken => register_ls_token caller egld w
  | RegisterUnstakeToken => register_unstake_token caller egld w
  | SetStateActive => set_state caller true w
  | SetStateInactive => set_state caller false w
  | SetAccumulator a => set_accumulator caller a w
  | SetFees f => set_fees caller f w
  | SetMinimumRounds r => set_minimum_rounds caller r w
  | SetMaxAddresses n => set_max_addresses caller n w
  | SetMaxSelected n => set_max_selected caller n w
  | SetUnbondPeriod p => set_unbond_period caller p w
  | AddManagers l => add_managers caller l w
  | RemoveManager a => remove_manager caller a w
  | SetScoringConfig s => set_scoring_config caller s w
  | Migrate a o => migrate caller a o w
  | MigratePending => migrate_pending caller egld w
  | AddRewards => add_rewards caller egld w
  | SetMigrationSc a => set_migration_sc caller a w
  end.

(** ESDT payments move from the caller to the contract before the endpoint runs
    (VM). A payment the caller cannot afford is not a possible transaction
    ([EInvalid]). Tokens other than LS and unstake are not tracked. *)
Fixpoint pay_in (caller : addr) (pays : list pay) (w : world) : res world :=
  match pays with
  | [] => Ok w
  | p :: r =>
      let* w1 :=
        match y_tok p with
        | TokLs => match debit (w_ls w) caller (y_amt p) with
                   | Ok m => Ok (set_ls (credit m SELF (y_amt p)) w)
                   | Er _ => Er EInvalid
                   end
        | TokUst n => match debit (w_ust w) (n, caller) (y_amt p) with
                      | Ok m => Ok (set_ust (credit m (n, SELF) (y_amt p)) w)
                      | Er _ => Er EInvalid
                      end
        | TokOther => Ok w
        end in
      pay_in caller r w1
  end.

(** Payment checks of the framework / VM: an endpoint without #[payable]
    rejects any payment, #[payable("EGLD")] rejects ESDT; a transaction carries
    EGLD or ESDT, not both. *)
Definition payment_ok (ep : endpoint) (egld : N) (pays : list pay) : res unit :=
  let no_esdt := N.of_nat (length pays) =? 0 in
  let* _ := require ((egld =? 0) || no_esdt) EInvalid in
  match payable_of ep with
  | PayNone => require ((egld =? 0) && no_esdt) ENotPayable
  | PayEgld => require no_esdt ENotPayable
  | PayAny => Ok tt
  end.

(** A transaction: all or nothing. The contract never calls itself. *)
Definition exec_tx (caller egld : N) (pays : list pay) (ep : endpoint) (w : world) : res world :=
  let* _ := require (negb (caller =? SELF)) EInvalid in
  let* w1 := pay_in caller pays w in
  let w2 := set_egld (w_egld w1 + egld) w1 in
  let* _ := payment_ok ep egld pays in
  let* _ := require (args_ok ep) EDecode in
  run_endpoint ep caller egld pays w2.

(** What can happen.
    - OTx: a transaction;
    - OExec i o: the i-th outstanding call reaches its destination and is
      executed there; None = it fails, Some v = it succeeds (v = EGLD sent back
      by withdraw / claimMulti, ignored for the others);
    - OCb i: the i-th answered call's callback runs (any order);
    - OAbort i: that callback aborts for a reason outside the contract: the gas
      reserved for it (LS/constants/mod.rs:5-6) runs out, or the receiver of EGLD it sends
      refuses;
    - OEpoch d: the block epoch advances;
    - OMoveLs, OMoveUst: token transfers between accounts (also to the contract,
      which is deployed payable by smart contracts,
      liquid-staking/interaction/devnet.snippets.sh:15);
    - ODonate: EGLD sent to the contract without a call;
    - OOwner: the owner hands over the contract (built-in ChangeOwnerAddress);
    - OProvider: the stake a provider really has for the contract becomes anything
      (slashing, theft, a top-up): providers need not be honest.
    Upgrading (LS/lib.rs:47-48, an empty function) is not an action. *)
Inductive op :=
| OTx (caller egld : N) (pays : list pay) (ep : endpoint)
| OExec (i : nat) (o : option N)
| OCb (i : nat)
| OEpoch (d : N)
| OMoveLs (from to : addr) (a : N)
| OMoveUst (n : N) (from to : addr) (a : N)
| ODonate (a : N)
| OOwner (a : addr)
| OProvider (c : addr) (active undelegated : N)
| OAbort (i : nat).

(** Result of an action: success, aborted transaction, aborted callback, or not
    a possible action in this state (nothing happens). *)
Inductive status := SOk | SErr (e : err) | SCbFail (e : err) | SInvalid.

Definition live_of (w : world) (c : addr) : N * N := default (0, 0) (w_live w !! c).

(** Execution of a call at its destination, as in the delegation system contract
    (delegation-mock/src/delegation.rs:25-69): un-delegating more than the active
    stake and withdrawing more than was un-delegated is impossible. None =
    impossible outcome. Other outcomes arise after [OProvider]. *)
Definition exec_call (k : call) (o : option N) (w : world) : option (reply * world) :=
  match o with
  | None => Some (RFail, w)
  | Some v =>
      match k with
      | KDeleg c a | KWhite c a _ =>
          let '(x, u) := live_of w c in
          Some (RDone 0, set_live (<[c := (x + a, u)]> (w_live w)) w)
      | KUndel c a =>
          let '(x, u) := live_of w c in
          if a <=? x then Some (RDone 0, set_live (<[c := (x - a, u + a)]> (w_live w)) w)
          else None
      | KWithd c =>
          let '(x, u) := live_of w c in
          if v <=? u then Some (RDone v, set_live (<[c := (x, u - v)]> (w_live w)) w)
          else None
      | KClaim _ => Some (RDone v, w)
      | KIssue _ _ _ => Some (RDone 0, w)
      end
  end.

(** removal of the i-th element *)
Fixpoint drop_nth {A} (i : nat) (l : list A) : list A :=
  match i, l with
  | O, _ :: r => r
  | S j, x :: r => x :: drop_nth j r
  | _, [] => []
  end.

(** One action. The log is cleared first, so it holds the effects of the last
    action only. An aborted transaction leaves the state unchanged; an aborted
    callback consumes the reply, keeps the storage, and the EGLD that came with
    it stays in the contract. *)
Definition step (w0 : world) (o : op) : world * status :=
  let w := set_log [] w0 in
  match o with
  | OTx caller egld pays ep =>
      match exec_tx caller egld pays ep w with
      | Ok w' => (w', SOk)
      | Er e => (w, SErr e)
      end
  | OExec i out =>
      match nth_error (w_calls w) i with
      | None => (w, SInvalid)
      | Some k =>
          match exec_call k out w with
          | None => (w, SInvalid)
          | Some (r, w1) =>
              (set_res (w_res w1 ++ [(k, r)]) (set_calls (drop_nth i (w_calls w1)) w1), SOk)
          end
      end
  | OCb i =>
      match nth_error (w_res w) i with
      | None => (w, SInvalid)
      | Some (k, r) =>
          let w1 := set_egld (w_egld w + attached k r) (set_res (drop_nth i (w_res w)) w) in
          match callback k r w1 with
          | Ok w2 => (w2, SOk)
          | Er e => (w1, SCbFail e)
          end
      end
  | OEpoch d =>
      if w_epoch w + d <? U64 then (set_epoch (w_epoch w + d) w, SOk) else (w, SInvalid)
  | OMoveLs from to a =>
      if from =? SELF then (w, SInvalid)
      else match debit (w_ls w) from a with
           | Ok m => (set_ls (credit m to a) w, SOk)
           | Er _ => (w, SInvalid)
           end
  | OMoveUst n from to a =>
      if from =? SELF then (w, SInvalid)
      else match debit (w_ust w) (n, from) a with
           | Ok m => (set_ust (credit m (n, to) a) w, SOk)
           | Er _ => (w, SInvalid)
           end
  | ODonate a => (set_egld (w_egld w + a) w, SOk)
  | OOwner a => (set_owner a w, SOk)
  | OProvider c x u => (set_live (<[c := (x, u)]> (w_live w)) w, SOk)
  | OAbort i =>
      match nth_error (w_res w) i with
      | None => (w, SInvalid)
      | Some (k, r) => (set_egld (w_egld w + attached k r) (set_res (drop_nth i (w_res w)) w), SCbFail EAborted)
      end
  end.

(** State right after deployment (LS/lib.rs:61-93): nothing in circulation. *)
Definition deploy (owner acc fees rpe minr maxsel maxaddr unbond epoch : N) : res world :=
  let* _ := require ((rpe <? U64) && (minr <? U64) && (maxaddr <? U32) && (unbond <? U64)
                     && (epoch <? U64) && negb (owner =? SELF)) EDecode in
  let* g := init acc fees rpe minr maxsel maxaddr unbond in
  Ok (World g (Pool 0 0 0 0 0 0 0) [] [] ∅ ∅ 0 ∅ ∅ ∅ 0 epoch owner [] [] ∅ []).

(** Histories. *)
Fixpoint run (w : world) (os : list op) : world :=
  match os with [] => w | o :: r => run (fst (step w o)) r end.

Inductive Reachable : world -> Prop :=
| reach_deploy owner acc fees rpe minr maxsel maxaddr unbond epoch w :
    deploy owner acc fees rpe minr maxsel maxaddr unbond epoch = Ok w -> Reachable w
| reach_step w o : Reachable w -> Reachable (fst (step w o)).
