(** Manage.v — batch and maintenance endpoints, LS/manage.rs. *)
From Verif Require Export Lib.

(** choice of the amount in delegatePending (LS/manage.rs:42-70) and
    unDelegatePending (LS/manage.rs:119-147): [q] is the queue *)
Definition batch_amount (amount : option N) (q : N) : res N :=
  let* _ := require (MIN_EGLD <=? q) EInsufficientPendingEgld in
  match amount with
  | Some a =>
      let* _ := require (a <=? q) EInsufficientPendingEgld in
      let* _ := require (MIN_EGLD <=? a) EInsufficientPendingEgld in
      let* left_over := sub q a in
      let* _ := require ((MIN_EGLD <=? left_over) || (left_over =? 0)) EInsufficientPendingEgld in
      Ok a
  | None => Ok q
  end.

(** loop of delegate_pending, LS/manage.rs:77-98 *)
Fixpoint delegate_batch (ds : list dsel) (w : world) : res world :=
  match ds with
  | [] => Ok w
  | d :: r =>
      let w1 := set_dl (move_to_back (d_addr d) (w_dl w)) w in
      let* w2 := upd_prov (d_addr d) (fun p => Ok (set_p_pst (p_pst p + d_amt d) p)) w1 in
      let* w3 := register (KDeleg (d_addr d) (d_amt d)) (d_amt d) w2 in
      delegate_batch r w3
  end.

(** delegatePending, LS/manage.rs:32-100 *)
Definition delegate_pending (caller : addr) (amount : option N) (w : world) : res world :=
  let* c := cache_new w in
  let* _ := is_state_active w in
  let* _ := is_manager caller w in
  let* a := batch_amount amount (pend c) in
  let* '(ds, c1) := get_delegation_contract a true (w_dl w) (w_ul w) (w_pv w) (w_cfg w) c in
  let* p := sub (pend c1) a in
  let c2 := set_pend p c1 in
  let* w1 := delegate_batch ds w in
  Ok (commit c2 (emit (EvGeneral caller c2 (w_epoch w1)) w1)).

(** loop of un_delegate_pending, LS/manage.rs:154-174 *)
Fixpoint undelegate_batch (ds : list dsel) (w : world) : res world :=
  match ds with
  | [] => Ok w
  | d :: r =>
      let w1 := set_ul (move_to_back (d_addr d) (w_ul w)) w in
      let* w2 := upd_prov (d_addr d) (fun p => Ok (set_p_pun (p_pun p + d_amt d) p)) w1 in
      let* w3 := register (KUndel (d_addr d) (d_amt d)) 0 w2 in
      undelegate_batch r w3
  end.

(** unDelegatePending, LS/manage.rs:109-177 *)
Definition un_delegate_pending (caller : addr) (amount : option N) (w : world) : res world :=
  let* c := cache_new w in
  let* _ := is_state_active w in
  let* _ := is_manager caller w in
  let* a := batch_amount amount (pfu c) in
  let* '(ds, c1) := get_delegation_contract a false (w_dl w) (w_ul w) (w_pv w) (w_cfg w) c in
  let* q := sub (pfu c1) a in
  let c2 := set_pfu q c1 in
  let* w1 := undelegate_batch ds w in
  Ok (commit c2 (emit (EvGeneral caller c2 (w_epoch w1)) w1)).

(** withdrawPending, LS/manage.rs:185-206 *)
Definition withdraw_pending (caller contract : addr) (w : world) : res world :=
  let* c := cache_new w in
  let* _ := is_manager caller w in
  let* _ := is_state_active w in
  let* _ := require (match w_pv w !! contract with Some _ => true | None => false end)
              ENotWhitelisted in
  let* w1 := register (KWithd contract) 0 w in
  Ok (commit c w1).

(** claimRewards, LS/manage.rs:212-240 *)
Definition claim_rewards (caller : addr) (w : world) : res world :=
  let* c := cache_new w in
  let* _ := is_manager caller w in
  let* _ := is_state_active w in
  let* _ := require (negb (N.of_nat (length (w_dl w)) =? 0)) ENoDelegationContracts in
  let* w1 := register (KClaim (w_dl w)) 0 w in
  Ok (commit c w1).

(** claimFees, LS/manage.rs:242-259. [during] is whatever happens while the
    accumulator executes [deposit] (the synchronous call at 251-256); it fails
    if the accumulator fails. The cache taken at 244 is written back at the end
    (LS/contexts/base.rs:46-63). A call to an own non-existing endpoint fails. *)
Definition claim_fees_with (during : world -> res world) (w : world) : res world :=
  let* c := cache_new w in
  let* _ := require (0 <? fees_res c) EInsufficientFeesReserve in
  let* _ := require (negb (c_acc (w_cfg w) =? SELF)) ECalleeFailed in
  let* w1 := take_egld (fees_res c) w in
  let w2 := emit (XDeposit (c_acc (w_cfg w)) (fees_res c)) w1 in
  let* w3 := during w2 in
  Ok (commit (set_fees_res 0 c) w3).

(** claimFees with an accumulator that does not call back into the contract and
    either accepts ([ok] = true) or fails, LS/manage.rs:242-259 *)
Definition claim_fees (ok : bool) (w : world) : res world :=
  claim_fees_with (fun w' => if ok then Ok w' else Er ECalleeFailed) w.
