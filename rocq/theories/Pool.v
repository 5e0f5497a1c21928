(** Pool.v — LS/liquidity_pool.rs. *)
From Verif Require Export Chain.

(** get_egld_amount, LS/liquidity_pool.rs:41-57 *)
Definition get_egld_amount (x : N) (c : pool) : res N :=
  let* _ := require (x <=? supply c) ENotEnoughLp in
  let* e := div (x * reserve c) (supply c) in
  let* _ := require (0 <? e) EInsufficientLiqBurned in
  Ok e.

(** get_ls_amount, LS/liquidity_pool.rs:59-70 *)
Definition get_ls_amount (a : N) (c : pool) : res N :=
  let* m := if 0 <? reserve c then div (a * supply c) (reserve c) else Ok a in
  let* _ := require (0 <? m) EInsufficientLiquidity in
  Ok m.

(** pool_add_liquidity, LS/liquidity_pool.rs:15-26 *)
Definition pool_add_liquidity (a : N) (c : pool) : res (N * pool) :=
  let* m := get_ls_amount a c in
  Ok (m, set_reserve (reserve c + a) (set_supply (supply c + m) c)).

(** pool_remove_liquidity, LS/liquidity_pool.rs:28-39 *)
Definition pool_remove_liquidity (x : N) (c : pool) : res (N * pool) :=
  let* e := get_egld_amount x c in
  let* s := sub (supply c) x in
  let* r := sub (reserve c) e in
  Ok (e, set_reserve r (set_supply s c)).

(** clean_old_unbond_epochs, LS/liquidity_pool.rs:123-133 *)
Definition clean_old_unbond_epochs (n epoch : N) (w : world) : res world :=
  let* '(unstake_epoch, unbond_epoch) := token_attributes n w in
  if unstake_epoch <? epoch then
    let w1 := set_un (delete unbond_epoch (w_un w)) w in
    nft_burn n (ubal w1 n SELF) w1
  else Ok w.

(** mint_unstake_tokens, LS/liquidity_pool.rs:80-117: the nonce paid out. The
    mapped nonce 0 would count as empty ([nonce.is_empty()]); nonces start at 1. *)
Definition mint_unstake_tokens (attr : N * N) (a unbond_epoch epoch : N) (w : world)
  : res (N * world) :=
  let* _ := unstake_token_id w in
  match w_un w !! unbond_epoch with
  | None =>
      let '(w1, n) := nft_create (a + 1) attr w in
      let w2 := set_un (<[unbond_epoch := n]> (w_un w1)) w1 in
      let* w3 := if 1 <? n then clean_old_unbond_epochs (n - 1) epoch w2 else Ok w2 in
      Ok (n, w3)
  | Some n =>
      let* w1 := nft_add n a w in
      Ok (n, w1)
  end.

(** burn_unstake_tokens, LS/liquidity_pool.rs:119-121 *)
Definition burn_unstake_tokens (n a : N) (w : world) : res world := nft_burn n a w.
