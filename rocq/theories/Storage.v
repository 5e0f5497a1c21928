(** Storage.v — the storage of the contract as bytes: the keys of LS/storage/mod.rs and
    the collections of the framework that are used there, on top of Codec.v. *)
From Coq Require Import String Ascii.
From Verif Require Export Codec Chain.

(** the bytes of a text, LS/storage/mod.rs:9 *)
Fixpoint text (s : string) : bytes :=
  match s with EmptyString => [] | String c r => N_of_ascii c :: text r end.

(** The parts of a SetMapper (framework: a queue of linked nodes and, per value, the
    number of its node), LS/storage/mod.rs:8-14 *)
Inductive node := NInfo | NLinks (i : N) | NValue (i : N) | NId (a : addr).
(** The parts of an UnorderedSetMapper (framework: a vector and, per value, its
    position), LS/storage/mod.rs:23-25 *)
Inductive slot := SLen | SItem (i : N) | SIndex (a : addr).

(** Everything the contract stores, LS/storage/mod.rs:8-101, LS/migrate.rs:95-97 *)
Inductive item :=
| IDelegationList (x : node) | IUnDelegationList (x : node)
| IRecord (c : addr) | IManagers (x : slot) | IScoring | IFees | IAccumulator
| IRoundsPerEpoch | IMinimumRounds | IState | ILsToken | ISupply | IReserve | IFeesReserve
| IWithdrawn | IUnstakeToken | IPending | IPendingUnstake | IPendingUnbond
| INonce (epoch : N) | IMaxAddresses | IMaxSelected | IUnbondPeriod | IMigration.

(** keys of the parts of a SetMapper after the key of the mapper, LS/storage/mod.rs:8-14 *)
Definition node_key (x : node) : bytes :=
  match x with
  | NInfo => text ".info"
  | NLinks i => text ".node_links" ++ be 4 i
  | NValue i => text ".value" ++ be 4 i
  | NId a => text ".node_id" ++ be 32 a
  end.
(** keys of the parts of an UnorderedSetMapper, LS/storage/mod.rs:23-25 *)
Definition slot_key (x : slot) : bytes :=
  match x with
  | SLen => text ".len"
  | SItem i => text ".item" ++ be 4 i
  | SIndex a => text ".index" ++ be 32 a
  end.
(** keys, LS/storage/mod.rs:8-101, LS/migrate.rs:95-97 *)
Definition key (e : item) : bytes :=
  match e with
  | IDelegationList x => text "delegationAddressesMap" ++ node_key x      (* 9 *)
  | IUnDelegationList x => text "unDelegationAddressesMap" ++ node_key x  (* 13 *)
  | IRecord c => text "delegationContract" ++ be 32 c                     (* 17 *)
  | IManagers x => text "managers" ++ slot_key x                          (* 24 *)
  | IScoring => text "scoringConfig"                                      (* 28 *)
  | IFees => text "fees"                                                  (* 32 *)
  | IAccumulator => text "accumulatorContract"                            (* 36 *)
  | IRoundsPerEpoch => text "roundsPerEpoch"                              (* 40 *)
  | IMinimumRounds => text "minimumRounds"                                (* 44 *)
  | IState => text "state"                                                (* 48 *)
  | ILsToken => text "lsTokenId"                                          (* 52 *)
  | ISupply => text "lsTokenSupply"                                       (* 56 *)
  | IReserve => text "virtualEgldReserve"                                 (* 60 *)
  | IFeesReserve => text "feesReserve"                                    (* 64 *)
  | IWithdrawn => text "totalWithdrawnEgld"                               (* 68 *)
  | IUnstakeToken => text "unstakeTokenId"                                (* 72 *)
  | IPending => text "pendingEgld"                                        (* 76 *)
  | IPendingUnstake => text "pendingEgldForUnstake"                       (* 80 *)
  | IPendingUnbond => text "pendingEgldForUnbond"                         (* 84 *)
  | INonce epoch => text "unstakeTokenNonce" ++ be 8 epoch                (* 88 *)
  | IMaxAddresses => text "maxDelegationAddresses"                        (* 92 *)
  | IMaxSelected => text "maxSelectedProviders"                           (* 96 *)
  | IUnbondPeriod => text "unbondPeriod"                                  (* 100 *)
  | IMigration => text "migrationScAddress"                               (* migrate.rs:96 *)
  end.

(** The storage of an account: bytes under every key, none where nothing is stored. *)
Definition store : Type := bytes -> bytes.
(** storage write, LS/contexts/base.rs:46-63 *)
Definition put (k v : bytes) (s : store) : store := fun x => if decide (x = k) then v else s x.

(** ** SetMapper of addresses; [b] is the key of the mapper *)
Section SetMapper.
Variable b : bytes.
Definition nk (x : node) : bytes := b ++ node_key x.

(** QueueMapperInfo (framework): length, first and last node, last node number given out.
    An empty queue is written as nothing, which forgets the numbers given out;
    LS/storage/mod.rs:8-14 *)
Record qinfo := Qinfo { q_len : N; q_front : N; q_back : N; q_new : N }.
(** writing it, LS/storage/mod.rs:8-14 *)
Definition put_info (q : qinfo) (s : store) : store :=
  put (nk NInfo) (if q_len q =? 0 then [] else be 4 (q_len q) ++ be 4 (q_front q) ++ be 4 (q_back q) ++ be 4 (q_new q)) s.
(** reading it, LS/storage/mod.rs:8-14 *)
Definition get_info (s : store) : option qinfo :=
  match s (nk NInfo) with
  | [] => Some (Qinfo 0 0 0 0)
  | l => whole (rd (read_be 4) (fun a => rd (read_be 4) (fun c => rd (read_be 4) (fun d =>
           rd (read_be 4) (fun e => yield (Qinfo a c d e)))))) l
  end.
(** Node (framework): the nodes before and after, 0 for none; LS/storage/mod.rs:8-14 *)
Definition put_links (i prev next : N) (s : store) : store := put (nk (NLinks i)) (be 4 prev ++ be 4 next) s.
(** reading it, LS/storage/mod.rs:8-14 *)
Definition get_links (i : N) (s : store) : option (N * N) :=
  whole (rd (read_be 4) (fun p => rd (read_be 4) (fun n => yield (p, n)))) (s (nk (NLinks i))).
(** the node of a value, 0 for none, LS/storage/mod.rs:8-14 *)
Definition get_id (a : addr) (s : store) : option N := get_int 4 (s (nk (NId a))).

(** SetMapper::contains (framework), LS/storage/mod.rs:8-14 *)
Definition sm_contains (a : addr) (s : store) : option bool :=
  match get_id a s with Some i => Some (negb (i =? 0)) | None => None end.

(** SetMapper::insert with QueueMapper::push_back_node_id (framework), called at
    LS/utils/generic.rs:43,49,64,71; the node number is a u32 *)
Definition sm_insert (a : addr) (s : store) : option store :=
  match get_id a s, get_info s with
  | Some i, Some q =>
      if i =? 0 then
        let id := (q_new q + 1) mod U32 in
        let link :=
          if q_len q =? 0 then Some s
          else match get_links (q_back q) s with
               | Some (p, _) => Some (put_links (q_back q) p id s)
               | None => None
               end in
        match link with
        | Some s1 =>
            let s2 := put_links id (if q_len q =? 0 then 0 else q_back q) 0 s1 in
            let s3 := put (nk (NValue id)) (top_addr a) s2 in
            let s4 := put_info (Qinfo ((q_len q + 1) mod U32) (if q_len q =? 0 then id else q_front q) id id) s3 in
            Some (put (nk (NId a)) (top_num id) s4)
        | None => None
        end
      else Some s
  | _, _ => None
  end.

(** SetMapper::remove with QueueMapper::remove_by_node_id (framework), called at
    LS/utils/generic.rs:53,57 *)
Definition sm_remove (a : addr) (s : store) : option store :=
  match get_id a s with
  | Some i =>
      if i =? 0 then Some s
      else
        match get_links i s, get_info s with
        | Some (p, n), Some q =>
            let before :=
              if p =? 0 then Some s
              else match get_links p s with Some (pp, _) => Some (put_links p pp n s) | None => None end in
            match before with
            | Some s1 =>
                let after :=
                  if n =? 0 then Some s1
                  else match get_links n s1 with Some (_, nn) => Some (put_links n p nn s1) | None => None end in
                match after with
                | Some s2 =>
                    let s3 := put (nk (NValue i)) [] (put (nk (NLinks i)) [] s2) in
                    let s4 := put_info (Qinfo (q_len q - 1) (if p =? 0 then n else q_front q)
                                          (if n =? 0 then p else q_back q) (q_new q)) s3 in
                    Some (put (nk (NId a)) [] s4)
                | None => None
                end
            | None => None
            end
        | _, _ => None
        end
  | None => None
  end.

(** iteration (framework) from node [i] on, at most [n] nodes, LS/selection.rs:81,141,
    LS/manage.rs:226 *)
Fixpoint sm_walk (n : nat) (i : N) (s : store) : option (list addr) :=
  if i =? 0 then Some []
  else match n with
       | O => None
       | S m =>
           match get_addr (s (nk (NValue i))), get_links i s with
           | Some a, Some (_, next) =>
               match sm_walk m next s with Some l => Some (a :: l) | None => None end
           | _, _ => None
           end
       end.
(** all values in the order of iteration, LS/selection.rs:81,141, LS/manage.rs:226 *)
Definition sm_items (s : store) : option (list addr) :=
  match get_info s with Some q => sm_walk (N.to_nat (q_len q)) (q_front q) s | None => None end.
(** SetMapper::len (framework), LS/delegation.rs:39-47 *)
Definition sm_len (s : store) : option N :=
  match get_info s with Some q => Some (q_len q) | None => None end.
End SetMapper.

(** ** UnorderedSetMapper of addresses; [b] is the key of the mapper *)
Section UnorderedSetMapper.
Variable b : bytes.
Definition sk (x : slot) : bytes := b ++ slot_key x.

(** length of the vector (usize), LS/storage/mod.rs:23-25 *)
Definition us_len (s : store) : option N := get_int 4 (s (sk SLen)).
(** position of a value, 0 for none, LS/storage/mod.rs:23-25 *)
Definition us_index (a : addr) (s : store) : option N := get_int 4 (s (sk (SIndex a))).
(** UnorderedSetMapper::contains (framework), LS/config.rs:127 *)
Definition us_contains (a : addr) (s : store) : option bool :=
  match us_index a s with Some i => Some (negb (i =? 0)) | None => None end.
(** UnorderedSetMapper::insert (framework), through extend at LS/config.rs:106 *)
Definition us_insert (a : addr) (s : store) : option store :=
  match us_index a s, us_len s with
  | Some i, Some n =>
      if i =? 0 then
        let m := (n + 1) mod U32 in
        Some (put (sk (SIndex a)) (top_num m) (put (sk SLen) (top_num m) (put (sk (SItem m)) (top_addr a) s)))
      else Some s
  | _, _ => None
  end.
(** UnorderedSetMapper::swap_remove (framework), LS/config.rs:112 *)
Definition us_remove (a : addr) (s : store) : option store :=
  match us_index a s, us_len s with
  | Some i, Some n =>
      if i =? 0 then Some s
      else
        let moved :=
          if i =? n then Some s
          else match get_addr (s (sk (SItem n))) with
               | Some z => Some (put (sk (SIndex z)) (top_num i) (put (sk (SItem i)) (top_addr z) s))
               | None => None
               end in
        match moved with
        | Some s1 => Some (put (sk (SIndex a)) [] (put (sk SLen) (top_num (n - 1)) (put (sk (SItem n)) [] s1)))
        | None => None
        end
  | _, _ => None
  end.
(** iteration (framework): positions [i], [i]+1, ... ([n] of them), LS/storage/mod.rs:23-25 *)
Fixpoint us_walk (n : nat) (i : N) (s : store) : option (list addr) :=
  match n with
  | O => Some []
  | S m => match get_addr (s (sk (SItem i))), us_walk m (i + 1) s with
           | Some a, Some l => Some (a :: l)
           | _, _ => None
           end
  end.
(** all values in the order of iteration (view getManagers), LS/storage/mod.rs:23-25 *)
Definition us_items (s : store) : option (list addr) :=
  match us_len s with Some n => us_walk (N.to_nat n) 1 s | None => None end.
End UnorderedSetMapper.
