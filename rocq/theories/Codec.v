(** Codec.v — how values are written to storage as bytes. The structures of
    LS/structs.rs derive TopEncode, TopDecode, NestedEncode and NestedDecode; these
    definitions are the formats of the framework for the types that occur there.
    Bytes are numbers below 256. Decoding aborts ([None]) on anything malformed. *)
From Verif Require Export Types.

Notation bytes := (list N) (only parsing).

(** [n] bytes, most significant first: fixed-width integers and addresses inside a
    structure or a key (u32, u64, ManagedAddress), LS/structs.rs:7-18 *)
Fixpoint be (n : nat) (k : N) : bytes :=
  match n with O => [] | S m => be m (k / 256) ++ [k mod 256] end.
(** the number written by some bytes, LS/structs.rs:7-18 *)
Definition num (l : bytes) : N := fold_left (fun a b => 256 * a + b) l 0.
(** the number of bytes of [k] without leading zeros, LS/structs.rs:7-18 *)
Definition width (k : N) : nat := N.to_nat ((N.size k + 7) / 8).

(** A number on its own (BigUint, u64, usize): no leading zeros, nothing at all for 0;
    LS/storage/mod.rs:31-33,39-45 *)
Definition top_num (k : N) : bytes := be (width k) k.
(** reading a BigUint on its own, LS/storage/mod.rs:31-33 *)
Definition get_num (l : bytes) : N := num l.
(** reading an integer of at most [n] bytes on its own (u64, usize, u32): longer ones
    abort, LS/storage/mod.rs:39-45,91-93 *)
Definition get_int (n : nat) (l : bytes) : option N :=
  if (length l <=? n)%nat then Some (num l) else None.
(** an address on its own, LS/storage/mod.rs:35-37 *)
Definition top_addr (a : addr) : bytes := be 32 a.
(** reading an address on its own: exactly 32 bytes, LS/storage/mod.rs:35-37 *)
Definition get_addr (l : bytes) : option addr :=
  if (length l =? 32)%nat then Some (num l) else None.
(** State: an enumeration without fields is written like the number of the case,
    LS/structs.rs:80-85 *)
Definition top_state (active : bool) : bytes := if active then [1] else [].
(** reading a State, LS/structs.rs:80-85 *)
Definition get_state (l : bytes) : option bool :=
  match l with [] => Some false | [b] => if b =? 0 then Some false else if b =? 1 then Some true else None | _ => None end.

(** BigUint inside a structure: the number of bytes, then the bytes, LS/structs.rs:7-18 *)
Definition nest_num (k : N) : bytes := be 4 (N.of_nat (width k)) ++ top_num k.
(** bool inside a structure, LS/structs.rs:15 *)
Definition nest_bool (b : bool) : bytes := [if b then 1 else 0].

(** Readers: a value and the bytes that are left. *)
Definition reader (A : Type) : Type := bytes -> option (A * bytes).
(** the next [n] bytes, LS/structs.rs:7-18 *)
Definition read_bytes (n : nat) : reader bytes := fun l =>
  if (n <=? length l)%nat then Some (take n l, drop n l) else None.
(** a fixed-width number, LS/structs.rs:7-18 *)
Definition read_be (n : nat) : reader N := fun l =>
  match read_bytes n l with Some (b, r) => Some (num b, r) | None => None end.
(** a BigUint, LS/structs.rs:7-18 *)
Definition read_num : reader N := fun l =>
  match read_be 4 l with Some (n, r) => read_be (N.to_nat n) r | None => None end.
(** a bool, LS/structs.rs:15 *)
Definition read_bool : reader bool := fun l =>
  match l with b :: r => if b =? 0 then Some (false, r) else if b =? 1 then Some (true, r) else None | [] => None end.
(** one reader after the other, LS/structs.rs:7-18 *)
Definition rd {A B} (x : reader A) (f : A -> reader B) : reader B := fun l =>
  match x l with Some (a, r) => f a r | None => None end.
(** the value, LS/structs.rs:7-18 *)
Definition yield {A} (a : A) : reader A := fun l => Some (a, l).
(** a structure on its own: nothing may be left over, LS/structs.rs:6 *)
Definition whole {A} (x : reader A) (l : bytes) : option A :=
  match x l with Some (a, []) => Some a | _ => None end.

(** DelegationContractData, LS/structs.rs:5-18 *)
Definition put_prov (p : prov) : bytes :=
  be 32 (p_admin p) ++ nest_num (p_total p) ++ nest_num (p_cap p) ++ be 8 (p_nodes p) ++ be 8 (p_apy p)
  ++ nest_num (p_staked p) ++ nest_num (p_unstaked p) ++ nest_bool (p_elig p)
  ++ nest_num (p_pst p) ++ nest_num (p_pun p).
(** DelegationContractData, LS/structs.rs:5-18 *)
Definition get_record : bytes -> option prov :=
  whole (rd (read_be 32) (fun admin => rd read_num (fun total => rd read_num (fun cap =>
    rd (read_be 8) (fun nodes => rd (read_be 8) (fun apy => rd read_num (fun staked =>
    rd read_num (fun unstaked => rd read_bool (fun elig => rd read_num (fun pst =>
    rd read_num (fun pun => yield (Prov admin total cap nodes apy staked unstaked elig pst pun)))))))))))).

(** UnstakeTokenAttributes, LS/structs.rs:26-31 *)
Definition put_attr (x : N * N) : bytes := be 8 (fst x) ++ be 8 (snd x).
(** UnstakeTokenAttributes, LS/structs.rs:26-31 *)
Definition get_attr : bytes -> option (N * N) :=
  whole (rd (read_be 8) (fun a => rd (read_be 8) (fun b => yield (a, b)))).

(** ScoringConfig, LS/structs.rs:87-107 *)
Definition put_scoring (s : scfg) : bytes :=
  be 8 (k_min_nodes s) ++ be 8 (k_max_nodes s) ++ be 8 (k_min_apy s) ++ be 8 (k_max_apy s)
  ++ be 8 (k_stake_w s) ++ be 8 (k_apy_w s) ++ be 8 (k_nodes_w s)
  ++ be 8 (k_max_score s) ++ be 8 (k_exp s) ++ be 8 (k_apy_mul s).
(** ScoringConfig, LS/structs.rs:87-107 *)
Definition get_scoring : bytes -> option scfg :=
  whole (rd (read_be 8) (fun a => rd (read_be 8) (fun b => rd (read_be 8) (fun c => rd (read_be 8) (fun d =>
    rd (read_be 8) (fun e => rd (read_be 8) (fun f => rd (read_be 8) (fun g => rd (read_be 8) (fun h =>
    rd (read_be 8) (fun i => rd (read_be 8) (fun j => yield (Scfg a b c d e f g h i j)))))))))))).
