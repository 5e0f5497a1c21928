(** Lib.v — user endpoints, LS/lib.rs. *)
From Verif Require Export Utils.

(** delegate, LS/lib.rs:101-114, with validate_delegate_conditions,
    LS/utils/delegate.rs:101-109 *)
Definition delegate (caller payment : N) (w : world) : res world :=
  let* c := cache_new w in
  let* _ := is_state_active w in
  let* _ := require (0 <? payment) EBadPaymentAmount in
  let* '(pending, extra) := get_action_amount (pfu c) payment in
  let* '(c1, w1) := process_delegation caller pending extra c w in
  Ok (commit c1 w1).

(** unDelegate, LS/lib.rs:119-135, with validate_undelegate_conditions,
    LS/utils/un_delegation.rs:56-74; [single_esdt()] aborts unless exactly one
    ESDT payment is present. *)
Definition un_delegate (caller : addr) (pays : list pay) (w : world) : res world :=
  let* c := cache_new w in
  match pays with
  | [p] =>
      let* _ := is_state_active w in
      let* _ := require (match y_tok p with TokLs => true | _ => false end) EBadPaymentToken in
      let* _ := require (0 <? y_amt p) EBadPaymentAmount in
      let* '(e, c1) := pool_remove_liquidity (y_amt p) c in
      let* w1 := burn_ls (y_amt p) w in
      let* '(instant, rest) := get_action_amount (pend c1) e in
      let* '(c2, w2) := process_un_delegation caller instant rest c1 w1 in
      Ok (commit c2 w2)
  | _ => Er EBadPaymentCount
  end.

(** loop of withdraw, LS/lib.rs:153-206: cache, world and amount to send *)
Fixpoint withdraw_loop (caller : addr) (pays : list pay) (c : pool) (w : world) (to_send : N)
  : res (pool * world * N) :=
  match pays with
  | [] => Ok (c, w, to_send)
  | p :: r =>
      match y_tok p with
      | TokUst n =>
          let* _ := require (0 <? y_amt p) EBadPaymentAmount in
          let* '(_, unbond_epoch) := token_attributes n w in
          let* _ := require (unbond_epoch <=? w_epoch w) EUnstakePeriodNotPassed in
          if y_amt p <=? withdrawn c then
            let* w1 := burn_unstake_tokens n (y_amt p) w in
            let* t := sub (withdrawn c) (y_amt p) in
            withdraw_loop caller r (set_withdrawn t c) w1 (to_send + y_amt p)
          else if 0 <? withdrawn c then
            let* w1 := burn_unstake_tokens n (withdrawn c) w in
            let* remaining := sub (y_amt p) (withdrawn c) in
            let* w2 := send_ust caller n remaining w1 in
            withdraw_loop caller r (set_withdrawn 0 c) w2 (to_send + withdrawn c)
          else Er EInsufficientUnbonded
      | _ => Er EBadPaymentToken
      end
  end.

(** withdraw, LS/lib.rs:140-210. [all_esdt_transfers()] ignores EGLD. *)
Definition withdraw (caller : addr) (pays : list pay) (w : world) : res world :=
  let* c := cache_new w in
  let* _ := is_state_active w in
  let* _ := unstake_token_id w in
  let* '(c1, w1, to_send) := withdraw_loop caller pays c w 0 in
  let* w2 := send_egld caller to_send w1 in
  Ok (commit c1 (emit (EvGeneral caller c1 (w_epoch w2)) w2)).

(** init, LS/lib.rs:61-93: configuration written at deployment *)
Definition init (acc fees rpe minr maxsel maxaddr unbond : N) : res cfg :=
  let* _ := require (1 <=? maxsel) EMaxSelectedProviders in
  let* _ := require (1 <=? maxaddr) EMaxChangedDelegationAddresses in
  Ok (Cfg false fees acc rpe minr maxaddr maxsel unbond None None [] TNotSet TNotSet).
