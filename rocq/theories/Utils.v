(** Utils.v — LS/utils/generic.rs, LS/utils/delegate.rs,
    LS/utils/un_delegation.rs. *)
From Verif Require Export Pool.

(** calculate_share, LS/utils/generic.rs:31-33 *)
Definition calculate_share (total cut : N) : N := total * cut / BPS.

(** can_perform_instant_action, LS/utils/generic.rs:121-130 *)
Definition can_instant (pending payment : N) : res bool :=
  if pending =? payment then Ok true
  else if payment <=? pending then
    let* d := sub pending payment in Ok (MIN_EGLD <=? d)
  else Ok false.

(** can_perform_fully_redeem_pending_amount, LS/utils/generic.rs:132-139 *)
Definition can_fully_redeem (pending payment : N) : res bool :=
  if pending <? payment then
    let* d := sub payment pending in Ok (MIN_EGLD <=? d)
  else Ok false.

(** calculate_instant_amount, LS/utils/generic.rs:80-97 *)
Definition calculate_instant_amount (sent pending : N) : res N :=
  if (pending <=? MIN_EGLD) || (sent <=? MIN_EGLD) then Ok 0
  else
    let* max_instant := sub sent MIN_EGLD in
    let* room := sub pending MIN_EGLD in
    if max_instant <=? room then Ok max_instant else Ok room.

(** calculate_partial_redeem_amount, LS/utils/generic.rs:141-160 *)
Definition partial_redeem (pending payment : N) : res (N * N) :=
  let* p := calculate_instant_amount payment pending in
  if (0 <? p) && (p <=? pending) then
    let* d := sub pending p in
    if MIN_EGLD <=? d then
      let* left_over := sub payment p in Ok (p, left_over)
    else Ok (0, payment)
  else Ok (0, payment).

(** get_action_amount, LS/utils/generic.rs:99-119: (instant part, rest) *)
Definition get_action_amount (pending payment : N) : res (N * N) :=
  let* a := can_instant pending payment in
  if a then Ok (payment, 0)
  else
    let* b := can_fully_redeem pending payment in
    if b then let* rest := sub payment pending in Ok (pending, rest)
    else partial_redeem pending payment.

(** decrease_pending_egld, LS/utils/delegate.rs:61-81 *)
Definition decrease_pending_egld (used mintamt : N) (c : pool) : res (pool * N) :=
  let* q := sub (pfu c) used in
  let c1 := set_withdrawn (withdrawn c + used) (set_pfu q c) in
  let* _ := require ((MIN_EGLD <=? pfu c1) || (pfu c1 =? 0)) EInsufficientUnstakePending in
  Ok (c1, mintamt + used).

(** increase_pending_egld, LS/utils/delegate.rs:83-99 *)
Definition increase_pending_egld (extra mintamt : N) (c : pool) : res (pool * N) :=
  let c1 := set_pend (pend c + extra) c in
  let* _ := require (MIN_EGLD <=? pend c1) EInsufficientPendingEgld in
  Ok (c1, mintamt + extra).

(** process_delegation, LS/utils/delegate.rs:18-59 *)
Definition process_delegation (caller used extra : N) (c : pool) (w : world)
  : res (pool * world) :=
  let* '(c1, f1) := if 0 <? used then decrease_pending_egld used 0 c else Ok (c, 0) in
  let* '(c2, f2) := if 0 <? extra then increase_pending_egld extra f1 c1 else Ok (c1, f1) in
  if 0 <? f2 then
    let* '(m, c3) := pool_add_liquidity f2 c2 in
    let* w1 := send_ls caller m (mint_ls m w) in
    Ok (c3, emit (EvAdd (extra + used) caller c3 (w_epoch w1)) w1)
  else Ok (c2, w).

(** process_instant_redemption, LS/utils/un_delegation.rs:37-54 *)
Definition process_instant_redemption (caller instant : N) (c : pool) (w : world)
  : res (pool * world) :=
  if 0 <? instant then
    let* p := sub (pend c) instant in
    let c1 := set_pend p c in
    let* _ := require ((MIN_EGLD <=? pend c1) || (pend c1 =? 0)) EInsufficientPendingEgld in
    let* w1 := send_egld caller instant w in
    Ok (c1, w1)
  else Ok (c, w).

(** undelegate_amount, LS/utils/un_delegation.rs:76-115 *)
Definition undelegate_amount (caller a : N) (c : pool) (w : world) : res (pool * world) :=
  if 0 <? a then
    let c1 := set_pfu (pfu c + a) c in
    let* _ := require ((MIN_EGLD <=? pfu c1) || (pfu c1 =? 0)) EInsufficientUnstakePending in
    let epoch := w_epoch w in
    let unbond_epoch := add64 epoch (c_unbond (w_cfg w)) in
    let* '(n, w1) := mint_unstake_tokens (epoch, unbond_epoch) a unbond_epoch epoch w in
    let* w2 := send_ust caller n a w1 in
    Ok (c1, w2)
  else Ok (c, w).

(** process_un_delegation, LS/utils/un_delegation.rs:19-35 *)
Definition process_un_delegation (caller instant rest : N) (c : pool) (w : world)
  : res (pool * world) :=
  let* '(c1, w1) := process_instant_redemption caller instant c w in
  let* '(c2, w2) := undelegate_amount caller rest c1 w1 in
  Ok (c2, emit (EvRemove (rest + instant) caller c2 (w_epoch w2)) w2).
