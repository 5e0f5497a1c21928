(** Callback.v — promise callbacks, LS/callback.rs. [from] is the address that
    answers (get_caller() inside the callback). The EGLD that comes with the
    reply has already been credited to the contract. *)
From Verif Require Export Manage.

(** remove_liquidity_callback, LS/callback.rs:15-42 *)
Definition remove_liquidity_callback (c : addr) (amt : N) (ok : bool) (w : world) : res world :=
  let* k := cache_new w in
  let* '(k1, w1) :=
    if ok then
      let k1 := set_pfb (pfb k + amt) k in
      let* w1 := upd_prov c (fun p =>
        let* s := sub (p_staked p) amt in
        let* u := sub (p_pun p) amt in
        Ok (set_p_pun u (set_p_unstaked (p_unstaked p + amt) (set_p_staked s p)))) w in
      Ok (k1, w1)
    else
      let k1 := set_pfu (pfu k + amt) k in
      let* w1 := upd_prov c (fun p =>
        let* u := sub (p_pun p) amt in Ok (set_p_pun u p)) w in
      Ok (k1, w1) in
  Ok (commit k1 (emit (EvGeneral c k1 (w_epoch w1)) w1)).

(** add_liquidity_callback, LS/callback.rs:44-70 *)
Definition add_liquidity_callback (c : addr) (amt : N) (ok : bool) (w : world) : res world :=
  let* k := cache_new w in
  if ok then
    let* w1 := upd_prov c (fun p =>
      let* u := sub (p_pst p) amt in
      Ok (set_p_pst u (set_p_staked (p_staked p + amt) p))) w in
    Ok (commit k w1)
  else
    let k1 := set_pend (pend k + amt) k in
    let* w1 := upd_prov c (fun p =>
      let* u := sub (p_pst p) amt in
      Ok (set_p_pst u (set_p_elig false p))) w in
    Ok (commit k1 (emit (EvGeneral c k1 (w_epoch w1)) w1)).

(** withdraw_tokens_callback, LS/callback.rs:72-87; [v] = EGLD received *)
Definition withdraw_tokens_callback (c : addr) (v : N) (w : world) : res world :=
  if 0 <? v then
    let* k := cache_new w in
    let* u := sub (pfb k) v in
    let k1 := set_pfb u (set_withdrawn (withdrawn k + v) k) in
    let* w1 := upd_prov c (fun p =>
      let* s := sub (p_unstaked p) v in Ok (set_p_unstaked s p)) w in
    Ok (commit k1 (emit (EvWithdrawPending v c c k1 (w_epoch w1)) w1))
  else Ok w.

(** claim_rewards_callback, LS/callback.rs:89-108 *)
Definition claim_rewards_callback (r : reply) (w : world) : res world :=
  match r with
  | RDone total =>
      if 0 <? total then
        let* k := cache_new w in
        let fees := calculate_share total (c_fees (w_cfg w)) in
        let* post := sub total fees in
        let k1 := set_reserve (reserve k + post)
                   (set_pend (pend k + post) (set_fees_res (fees_res k + fees) k)) in
        let w1 := emit (EvRevenue fees (w_epoch w)) w in
        Ok (commit k1 (emit (EvClaim total DELEGATION_MANAGER k1 (w_epoch w1)) w1))
      else Ok w
  | RFail => Ok w
  end.

(** whitelist_delegation_contract_callback, LS/callback.rs:110-140 *)
Definition whitelist_callback (c : addr) (amt : N) (caller : addr) (ok : bool) (w : world)
  : res world :=
  let* k := cache_new w in
  if ok then
    let* w1 := upd_prov c (fun p => Ok (set_p_staked (p_staked p + amt) p)) w in
    let w2 := set_dl (set_insert c (w_dl w1)) w1 in
    let w3 := set_ul (set_insert c (w_ul w2)) w2 in
    let* '(m, k1) := pool_add_liquidity amt k in
    let w4 := emit (EvAdd amt caller k1 (w_epoch w3)) (mint_ls m w3) in
    let* w5 := send_ls caller m w4 in
    Ok (commit k1 w5)
  else
    let w1 := set_pv (delete c (w_pv w)) w in
    let* w2 := send_egld caller amt w1 in
    Ok (commit k w2).

(** Default issue callback of the framework (multiversx-sc
    FungibleTokenMapper / NonFungibleTokenMapper
    default_issue_and_set_all_roles_cb, used by LS/config.rs:20-26,39-46): on
    success the identifier is stored, on failure the mapper is cleared and the
    returned EGLD goes to the caller of the issue. *)
Definition issue_callback (ls : bool) (who : addr) (amt : N) (ok : bool) (w : world) : res world :=
  let st := if ok then TIssued else TNotSet in
  let w1 := set_cfg (if ls then set_c_lstok st (w_cfg w) else set_c_usttok st (w_cfg w)) w in
  if ok then Ok w1
  else if 0 <? amt then send_egld who amt w1 else Ok w1.

(** Success of a reply ([ManagedAsyncCallResult::Ok]), LS/callback.rs:23-24 *)
Definition is_done (r : reply) : bool := match r with RDone _ => true | RFail => false end.

(** Dispatch of a reply to the callback registered with the call
    (LS/manage.rs:92-95,168-171,203,237, LS/delegation.rs:88-94). *)
Definition callback (k : call) (r : reply) (w : world) : res world :=
  match k with
  | KDeleg c a => add_liquidity_callback c a (is_done r) w
  | KUndel c a => remove_liquidity_callback c a (is_done r) w
  | KWithd c => withdraw_tokens_callback c (attached k r) w
  | KClaim _ => claim_rewards_callback r w
  | KWhite c a who => whitelist_callback c a who (is_done r) w
  | KIssue ls who a => issue_callback ls who a (is_done r) w
  end.
