(** TestKit.v — interpreter for the repository's own integration tests
    (liquid-staking/tests/contract_setup/mod.rs, contract_interactions/mod.rs):
    the contract model of World.v run against the provider and manager mocks of
    Mock.v, asynchronous calls being answered right after the transaction that
    sent them, as the test framework does. Used by Conformance.v only. *)
From Verif Require Export Mock.

Definition TE18 : N := 1000000000000000000.
Definition TE17 : N := 100000000000000000.

(** contract, mocks (by address), EGLD of the users, number of providers deployed *)
Record tk := TK { t_w : world; t_m : gmap addr mock; t_u : gmap addr N; t_n : N }.

(** addresses used: owner, accumulator, first provider; users are 500, 501, … *)
Definition T_OWNER : addr := 100.
Definition T_ACC : addr := 200.
Definition T_PROV : N := 1000.

(** What the mock at the destination answers
    (delegation-mock/src/delegation.rs, delegation-manager-mock/src/delegation_manager.rs). *)
Definition t_answer (epoch : N) (k : call) (ms : gmap addr mock) : option N * gmap addr mock :=
  match k with
  | KDeleg c a | KWhite c a _ =>
      match ms !! c with Some m => (Some 0, <[c := mock_delegate a m]> ms) | None => (None, ms) end
  | KUndel c a =>
      match ms !! c with
      | Some m => match mock_undelegate epoch a m with
                  | Ok m' => (Some 0, <[c := m']> ms) | Er _ => (None, ms) end
      | None => (None, ms)
      end
  | KWithd c =>
      match ms !! c with
      | Some m => match mock_withdraw epoch m with
                  | Ok (m', v) => (Some v, <[c := m']> ms) | Er _ => (None, ms) end
      | None => (None, ms)
      end
  | KClaim l =>
      match claim_multiple epoch l ms 0 with
      | Ok (ms', _, v, _) => (Some v, ms') | Er _ => (None, ms)
      end
  | KIssue _ _ _ => (Some 0, ms)
  end.

(** EGLD sent to user accounts by the last action *)
Fixpoint t_credit (l : list eff) (u : gmap addr N) : gmap addr N :=
  match l with
  | [] => u
  | XEgld a v :: r => t_credit r (<[a := default 0 (u !! a) + v]> u)
  | _ :: r => t_credit r u
  end.

Definition s_ok (s : status) : bool := match s with SOk => true | _ => false end.

(** Answers every outstanding call, oldest first, and runs its callback; [None]
    if an execution or a callback aborts. *)
Fixpoint t_settle (fuel : nat) (t : tk) : option tk :=
  match fuel, w_calls (t_w t) with
  | _, [] => Some t
  | O, _ => None
  | S n, k :: _ =>
      let '(o, ms) := t_answer (w_epoch (t_w t)) k (t_m t) in
      let '(w1, s1) := step (t_w t) (OExec 0 o) in
      let '(w2, s2) := step w1 (OCb 0) in
      if s_ok s1 && s_ok s2
      then t_settle n (TK w2 ms (t_credit (w_log w2) (t_u t)) (t_n t))
      else None
  end.

(** A transaction that must succeed *)
Definition t_tx (caller egld : N) (pays : list pay) (ep : endpoint) (t : tk) : option tk :=
  let '(w, s) := step (t_w t) (OTx caller egld pays ep) in
  if s_ok s then
    let u := <[caller := default 0 (t_u t !! caller) - egld]> (t_u t) in
    t_settle (length (w_calls w)) (TK w (t_m t) (t_credit (w_log w) u) (t_n t))
  else None.

Definition err_eq_dec (a b : err) : {a = b} + {a <> b}.
Proof. decide equality. Defined.

(** A transaction that must abort with the given error *)
Definition t_err (caller egld : N) (pays : list pay) (ep : endpoint) (e : err) (t : tk) : option tk :=
  let '(w, s) := step (t_w t) (OTx caller egld pays ep) in
  match s with
  | SErr e' => if err_eq_dec e e' then Some t else None
  | _ => None
  end.

Definition t_check (b : tk -> bool) (t : tk) : option tk := if b t then Some t else None.

(** LiquidStakingContractSetup::new, contract_setup/mod.rs:51-126 *)
Definition t_new (fees : N) : option tk :=
  match deploy T_OWNER T_ACC fees 14400 1400 25 100 10 0 with
  | Er _ => None
  | Ok w =>
      let t := TK w ∅ ∅ 0 in
      match t_tx T_OWNER 1 [] RegisterLsToken t with None => None | Some t =>
      match t_tx T_OWNER 1 [] RegisterUnstakeToken t with None => None | Some t =>
      match t_tx T_OWNER 0 [] SetStateActive t with None => None | Some t =>
      t_tx T_OWNER 0 [] (SetScoringConfig scfg_default) t
      end end end
  end.

(** Commands of contract_interactions/mod.rs; amounts already scaled. *)
Inductive tcmd :=
| TDeploy (bal total cap nodes apy : N)                 (* 19-72 *)
| TParams (i total cap nodes apy : N) (elig : bool)     (* 83-112 *)
| TInactive                                             (* 74-81 *)
| TUser (u egld : N)                                    (* setup_new_user *)
| TAdd (u a : N) | TAddErr (u a : N) (e : err)          (* delegate *)
| TRem (u a : N) | TRemErr (u a : N) (e : err)          (* un_delegate *)
| TDel (a : option N) | TDelErr (a : option N) (e : err)   (* delegate_pending by the owner *)
| TUnd (a : option N) | TUndErr (a : option N) (e : err)   (* un_delegate_pending *)
| TWdp (i : N)                                          (* withdraw_pending *)
| TWd (u n a : N) | TWdErr (u : N) (p : pay) (e : err)  (* withdraw *)
| TClaim                                                (* claim_rewards *)
| TEpoch (e : N)                                        (* set_block_epoch *)
| CStorage (ls res fees wd pend queue : N)              (* check_contract_storage *)
| CLs (u a : N) | CEgld (u a : N) | CSelf (a : N)       (* balances *)
| CUst (u n a : N) (attr : option (N * N))              (* check_user_nft_balance *)
| CPend (a : N) | CQueue (a : N) | CWdrawn (a : N)
| CProv (i st un : N).                                  (* check_delegation_contract_values *)

(** One command; [None] = the test fails. *)
Definition t_do (c : tcmd) (t : tk) : option tk :=
  let p := w_pool (t_w t) in
  match c with
  | TDeploy bal total cap nodes apy =>
      let a := T_PROV + t_n t in
      t_tx T_OWNER TE18 [] (Whitelist a T_OWNER total cap nodes apy)
        (TK (t_w t) (<[a := mock_deposit bal mock_init]> (t_m t)) (t_u t) (t_n t + 1))
  | TParams i total cap nodes apy elig =>
      t_tx T_OWNER 0 [] (ChangeParams (T_PROV + i) total cap nodes apy elig) t
  | TInactive => t_tx T_OWNER 0 [] SetStateInactive t
  | TUser u e => Some (TK (t_w t) (t_m t) (<[u := e]> (t_u t)) (t_n t))
  | TAdd u a => t_tx u a [] Delegate t
  | TAddErr u a e => t_err u a [] Delegate e t
  | TRem u a => t_tx u 0 [Pay TokLs a] UnDelegate t
  | TRemErr u a e => t_err u 0 [Pay TokLs a] UnDelegate e t
  | TDel a => t_tx T_OWNER 0 [] (DelegatePending a) t
  | TDelErr a e => t_err T_OWNER 0 [] (DelegatePending a) e t
  | TUnd a => t_tx T_OWNER 0 [] (UnDelegatePending a) t
  | TUndErr a e => t_err T_OWNER 0 [] (UnDelegatePending a) e t
  | TWdp i => t_tx T_OWNER 0 [] (WithdrawPending (T_PROV + i)) t
  | TWd u n a => t_tx u 0 [Pay (TokUst n) a] Withdraw t
  | TWdErr u q e => t_err u 0 [q] Withdraw e t
  | TClaim => t_tx T_OWNER 0 [] ClaimRewards t
  | TEpoch e =>
      let '(w, s) := step (t_w t) (OEpoch (e - w_epoch (t_w t))) in
      if s_ok s && (w_epoch w =? e) then Some (TK w (t_m t) (t_u t) (t_n t)) else None
  | CStorage ls rs fees wd pnd queue =>
      t_check (fun _ => (supply p =? ls) && (reserve p =? rs) && (fees_res p =? fees)
                        && (withdrawn p =? wd) && (pend p =? pnd) && (pfu p =? queue)) t
  | CLs u a => t_check (fun t => default 0 (w_ls (t_w t) !! u) =? a) t
  | CEgld u a => t_check (fun t => default 0 (t_u t !! u) =? a) t
  | CSelf a => t_check (fun t => w_egld (t_w t) =? a) t
  | CUst u n a attr =>
      t_check (fun t => (default 0 (w_ust (t_w t) !! (n, u)) =? a)
                        && match attr with
                           | None => true
                           | Some (x, y) => match w_attr (t_w t) !! n with
                                            | Some (x', y') => (x =? x') && (y =? y')
                                            | None => false
                                            end
                           end) t
  | CPend a => t_check (fun _ => pend p =? a) t
  | CQueue a => t_check (fun _ => pfu p =? a) t
  | CWdrawn a => t_check (fun _ => withdrawn p =? a) t
  | CProv i st un =>
      t_check (fun t => match w_pv (t_w t) !! (T_PROV + i) with
                        | Some d => (p_staked d =? st) && (p_unstaked d =? un)
                        | None => false
                        end) t
  end.

Fixpoint t_seq (l : list tcmd) (t : tk) : option tk :=
  match l with
  | [] => Some t
  | c :: r => match t_do c t with Some t' => t_seq r t' | None => None end
  end.

(** A test passes if every command and check succeeds. *)
Definition passes (l : list tcmd) : bool :=
  match t_new 400 with
  | Some t => match t_seq l t with Some _ => true | None => false end
  | None => false
  end.

(** number of the first failing command (for debugging a test) *)
Fixpoint t_fail (i : N) (l : list tcmd) (t : tk) : option N :=
  match l with
  | [] => None
  | c :: r => match t_do c t with Some t' => t_fail (i + 1) r t' | None => Some i end
  end.
Definition fails_at (l : list tcmd) : option N :=
  match t_new 400 with Some t => t_fail 0 l t | None => Some 999999 end.
