(** Base.v — result type, checked arithmetic, constants.

    Every definition cites the file and lines of /repo it models
    ("LS/" abbreviates liquid-staking/src/).  *)
From stdpp Require Export base gmap list numbers.
Global Open Scope N_scope.

(** Addresses are 256-bit big-endian numbers (ManagedAddress, 32 bytes). *)
Notation addr := N (only parsing).

(** The address of the liquid staking contract itself.  Which address it is
    does not matter; it only has to be a smart contract address. *)
Definition SELF : addr := 1.

(** [blockchain().is_smart_contract(a)] used in LS/migrate.rs:31,60,89: a
    MultiversX address is a contract address iff its first 8 bytes are zero. *)
Definition is_smart_contract (a : addr) : bool := a <? 2 ^ 192.

(** LS/constants/mod.rs:15-16 *)
Definition DELEGATION_MANAGER : addr := 2 ^ 176 + 327679.

(** LS/constants/mod.rs:7 *)
Definition MIN_EGLD : N := 1000000000000000000.
(** LS/constants/mod.rs:13 *)
Definition BPS : N := 10000.
(** LS/views.rs:28 *)
Definition INITIAL_EXCHANGE_RATE : N := 1000000000000000000.
(** Width of the machine integers used by the contract (u64; u32; usize is
    32 bits on the wasm32 target, LS/../wasm/Cargo.toml). *)
Definition U64 : N := 2 ^ 64.
Definition U32 : N := 2 ^ 32.

(** Reasons for which a call aborts: LS/errors/mod.rs:1-51 plus the aborts of
    the framework (arithmetic, decoding, missing payment, access control). *)
Inductive err :=
| ENotActive                    (* errors/mod.rs:1 *)
| ELsTokenNotIssued             (* errors/mod.rs:2, and the framework abort of get_token_id on an unset token *)
| EUnstakeTokenNotIssued        (* framework abort of get_token_id on an unset token *)
| EUnstakePeriodNotPassed       (* errors/mod.rs:9 *)
| EBadPaymentToken              (* errors/mod.rs:11 *)
| EBadPaymentAmount             (* errors/mod.rs:12 *)
| EInsufficientPendingEgld      (* errors/mod.rs:13 *)
| EInsufficientUnstakePending   (* errors/mod.rs:14 *)
| EInsufficientUnbonded         (* errors/mod.rs:16 *)
| EInsufficientLiquidity        (* errors/mod.rs:17 *)
| EInsufficientLiqBurned        (* errors/mod.rs:18 *)
| ENotEnoughLp                  (* errors/mod.rs:20 *)
| EBadDelegationAddress         (* errors/mod.rs:22 *)
| ENoDelegationContracts        (* errors/mod.rs:23 *)
| EAlreadyWhitelisted           (* errors/mod.rs:25 *)
| ENotWhitelisted               (* errors/mod.rs:26 *)
| EDelegationCap                (* errors/mod.rs:27 *)
| EOnlyDelegationAdmin          (* errors/mod.rs:29 *)
| EMaxDelegationAddresses       (* errors/mod.rs:32 *)
| EMaxUnDelegationAddresses     (* errors/mod.rs:34 *)
| EMaxSelectedProviders         (* errors/mod.rs:36 *)
| EMaxChangedDelegationAddresses(* errors/mod.rs:37 *)
| EMinEgldToDelegate            (* errors/mod.rs:40 *)
| EMigrationScNotSet            (* errors/mod.rs:42 *)
| EMigrationNotAllowed          (* errors/mod.rs:43 *)
| ENotManager                   (* errors/mod.rs:45 *)
| EScoringConfigNotSet          (* errors/mod.rs:47 *)
| EWeightsMustSumTo100          (* errors/mod.rs:49 *)
| EInsufficientFeesReserve      (* errors/mod.rs:51 *)
(* aborts raised by the framework or the VM *)
| EUnderflow                    (* BigUint subtraction with negative result *)
| EDivZero                      (* BigUint division by zero *)
| EUnwrap                       (* Option::unwrap on None, e.g. to_u64 of a too large BigUint *)
| EDecode                       (* decoding an empty storage value / missing token attributes *)
| EOnlyOwner                    (* #[only_owner] *)
| ENotPayable                   (* payment sent to an endpoint that does not accept it *)
| EBadPaymentCount              (* single_esdt() without exactly one ESDT payment *)
| EFunds                        (* EGLD / ESDT balance too low for a transfer or burn *)
| ETokenAlreadySet              (* issue on a token mapper that is not empty *)
| ECalleeFailed                 (* synchronous call failed *)
| EAborted                      (* out of gas, or a receiver refused a transfer *)
| EInvalid.                     (* not a possible transaction / environment action *)

(** A panic aborts the call: explicit error value. *)
Inductive res (A : Type) : Type := Ok (a : A) | Er (e : err).
Arguments Ok {A} a.
Arguments Er {A} e.

Definition rbind {A B} (x : res A) (f : A -> res B) : res B :=
  match x with Ok a => f a | Er e => Er e end.

Notation "'let*' x ':=' e 'in' k" := (rbind e (fun x => k))
  (at level 200, x binder, e at level 100, k at level 200, right associativity).
Notation "'let*' ' p ':=' e 'in' k" := (rbind e (fun p => k))
  (at level 200, p strict pattern, e at level 100, k at level 200, right associativity).

(** [require!(b, e)] *)
Definition require (b : bool) (e : err) : res unit := if b then Ok tt else Er e.

(** BigUint subtraction aborts instead of going negative. *)
Definition sub (a b : N) : res N := if b <=? a then Ok (a - b) else Er EUnderflow.
(** BigUint division aborts on a zero divisor. *)
Definition div (a b : N) : res N := if b =? 0 then Er EDivZero else Ok (a / b).
(** [Option::unwrap] *)
Definition unwrap {A} (o : option A) : res A :=
  match o with Some a => Ok a | None => Er EUnwrap end.
(** [BigUint::to_u64().unwrap() as usize]: aborts above u64, then truncates to
    the 32-bit usize of wasm32. *)
Definition to_usize (a : N) : res N := if a <? U64 then Ok (a mod U32) else Er EUnwrap.
(** wrapping u64 addition: LS/../wasm/Cargo.toml sets overflow-checks = false. *)
Definition add64 (a b : N) : N := (a + b) mod U64.
