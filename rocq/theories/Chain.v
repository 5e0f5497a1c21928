(** Chain.v — the primitives of the chain and of the framework that the
    contract uses: ledgers, token roles, access control, storage access.
    These model the MultiversX VM / multiversx-sc 0.54 behaviour relied upon by
    the cited call sites (see DESIGN.md, "Assumptions about the platform"). *)
From Verif Require Export Selection.

(** Emission of an effect: transfers, promises and events (call sites in
    LS/lib.rs, LS/manage.rs, LS/events.rs). *)
Definition emit (e : eff) (w : world) : world := set_log (w_log w ++ [e]) w.

(** Credit / debit of one entry of a ledger (VM). *)
Definition credit `{Countable K} (m : gmap K N) (k : K) (a : N) : gmap K N :=
  <[k := amt_at m k + a]> m.
Definition debit `{Countable K} (m : gmap K N) (k : K) (a : N) : res (gmap K N) :=
  if a <=? amt_at m k then Ok (<[k := amt_at m k - a]> m) else Er EFunds.

(** EGLD leaving the contract: aborts if the balance is too low (VM). *)
Definition take_egld (a : N) (w : world) : res world :=
  if a <=? w_egld w then Ok (set_egld (w_egld w - a) w) else Er EFunds.

(** [tx().to(to).egld(a).transfer()], e.g. LS/lib.rs:208 *)
Definition send_egld (to : addr) (a : N) (w : world) : res world :=
  let* w1 := take_egld a w in Ok (emit (XEgld to a) w1).

(** [tx()...egld(a)...register_promise()] / async_call: the value leaves the
    contract when the call is registered, LS/manage.rs:86-97,163-173,198-205,
    232-239, LS/delegation.rs:82-96 *)
Definition register (k : call) (a : N) (w : world) : res world :=
  let* w1 := take_egld a w in
  Ok (emit (XCall k) (set_calls (w_calls w1 ++ [k]) w1)).

(** mint_ls_token, LS/liquidity_pool.rs:72-74: minted to the contract itself *)
Definition mint_ls (a : N) (w : world) : world :=
  set_ls (credit (w_ls w) SELF a) w.

(** burn_ls_token, LS/liquidity_pool.rs:76-78 *)
Definition burn_ls (a : N) (w : world) : res world :=
  let* m := debit (w_ls w) SELF a in Ok (set_ls m w).

(** [tx().to(to).esdt(payment).transfer()] of LS tokens, LS/utils/delegate.rs:51,
    LS/callback.rs:133, LS/migrate.rs:41 *)
Definition send_ls (to : addr) (a : N) (w : world) : res world :=
  let* m := debit (w_ls w) SELF a in
  Ok (emit (XLs to a) (set_ls (credit m to a) w)).

(** transfer of unstake tokens held by the contract, LS/lib.rs:188-195,
    LS/utils/un_delegation.rs:106-113 *)
Definition send_ust (to : addr) (n a : N) (w : world) : res world :=
  let* m := debit (w_ust w) (n, SELF) a in
  Ok (emit (XUst to n a) (set_ust (credit m (n, to) a) w)).

(** [send().esdt_nft_create(..)], LS/liquidity_pool.rs:94-102: next nonce, the
    whole quantity is created at the contract. Name, royalties, hash and uri are
    not modelled. *)
Definition nft_create (a : N) (attr : N * N) (w : world) : world * N :=
  let n := w_last w + 1 in
  (set_ust (credit (w_ust w) (n, SELF) a)
    (set_attr (<[n := attr]> (w_attr w)) (set_last n w)), n).

(** [nft_add_quantity], LS/liquidity_pool.rs:112-115: the VM requires the
    contract to hold some quantity of the nonce. *)
Definition nft_add (n a : N) (w : world) : res world :=
  if 0 <? ubal w n SELF then Ok (set_ust (credit (w_ust w) (n, SELF) a) w) else Er EFunds.

(** [nft_burn], LS/liquidity_pool.rs:119-121,131 *)
Definition nft_burn (n a : N) (w : world) : res world :=
  let* m := debit (w_ust w) (n, SELF) a in Ok (set_ust m w).

(** [get_token_attributes], LS/lib.rs:161-163, LS/liquidity_pool.rs:126: read
    from the contract's own holding; empty (undecodable) if it holds none. *)
Definition token_attributes (n : N) (w : world) : res (N * N) :=
  if 0 <? ubal w n SELF then
    match w_attr w !! n with Some a => Ok a | None => Er EDecode end
  else Er EDecode.

(** [ls_token().get_token_id()], LS/contexts/base.rs:29: aborts when not issued *)
Definition ls_token_id (w : world) : res unit :=
  match c_lstok (w_cfg w) with TIssued => Ok tt | _ => Er ELsTokenNotIssued end.

(** [unstake_token().get_token_id()] (also inside nft_add_quantity, nft_burn and
    get_token_attributes), LS/lib.rs:148, LS/liquidity_pool.rs:90 *)
Definition unstake_token_id (w : world) : res unit :=
  match c_usttok (w_cfg w) with TIssued => Ok tt | _ => Er EUnstakeTokenNotIssued end.

(** StorageCache::new, LS/contexts/base.rs:26-39: a copy of the pool values
    (contract state and token id are read from the configuration when needed). *)
Definition cache_new (w : world) : res pool :=
  let* _ := ls_token_id w in Ok (w_pool w).

(** Drop for StorageCache, LS/contexts/base.rs:46-63 *)
Definition commit (c : pool) (w : world) : world := set_pool c w.

(** is_state_active, LS/utils/generic.rs:74-77 *)
Definition is_state_active (w : world) : res unit :=
  require (c_active (w_cfg w)) ENotActive.

(** is_manager, LS/config.rs:125-132 (the test) *)
Definition manager_b (a : addr) (w : world) : bool :=
  existsb (N.eqb a) (c_mgrs (w_cfg w)) || (a =? w_owner w).
(** is_manager(.., true), LS/config.rs:125-132 *)
Definition is_manager (a : addr) (w : world) : res unit :=
  require (manager_b a w) ENotManager.

(** #[only_owner], e.g. LS/config.rs:10 *)
Definition only_owner (a : addr) (w : world) : res unit :=
  require (a =? w_owner w) EOnlyOwner.

(** delegation_contract_data(c).update(f), e.g. LS/manage.rs:82-85 *)
Definition upd_prov (c : addr) (f : prov -> res prov) (w : world) : res world :=
  let* p := get_prov (w_pv w) c in
  let* p' := f p in
  Ok (set_pv (<[c := p']> (w_pv w)) w).

(** SetMapper::insert (appends when absent), LS/utils/generic.rs:40-50 *)
Definition set_insert (c : addr) (l : list addr) : list addr :=
  if existsb (N.eqb c) l then l else l ++ [c].
(** SetMapper::remove, LS/utils/generic.rs:52-58 *)
Definition set_remove (c : addr) (l : list addr) : list addr :=
  List.filter (fun x => negb (c =? x)) l.
(** UnorderedSetMapper::swap_remove, LS/config.rs:112: the last element takes the
    place of the removed one *)
Fixpoint replace_at (c z : addr) (l : list addr) : list addr :=
  match l with [] => [] | x :: r => if x =? c then z :: r else x :: replace_at c z r end.
(** UnorderedSetMapper::swap_remove, LS/config.rs:112 *)
Definition swap_remove (c : addr) (l : list addr) : list addr :=
  if existsb (N.eqb c) l then removelast (replace_at c (List.last l c) l) else l.
(** move_delegation_contract_to_back / move_un_delegation_contract_to_back,
    LS/utils/generic.rs:60-72 *)
Definition move_to_back (c : addr) (l : list addr) : list addr :=
  set_insert c (set_remove c l).
