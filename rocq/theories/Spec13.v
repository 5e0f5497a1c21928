(** Spec13.v — vocabulary of properties C110 to C113: values as wide as their types, calls
    of the storage mappers, what the contract reads from its storage. *)
From Coq Require Import String.
From Verif Require Export Storage Spec3.
Open Scope N_scope.

(** ** Values that fit their types *)
(** BigUint inside a structure: fewer than 2^32 bytes. *)
Definition fits_big (k : N) : Prop := N.of_nat (width k) < 2 ^ 32.
Definition fits_prov (p : prov) : Prop :=
  p_admin p < 2 ^ 256 /\ p_nodes p < 2 ^ 64 /\ p_apy p < 2 ^ 64
  /\ Forall fits_big [p_total p; p_cap p; p_staked p; p_unstaked p; p_pst p; p_pun p].
Definition fits_scoring (s : scfg) : Prop :=
  Forall (fun k => k < 2 ^ 64)
    [k_min_nodes s; k_max_nodes s; k_min_apy s; k_max_apy s; k_stake_w s; k_apy_w s; k_nodes_w s;
     k_max_score s; k_exp s; k_apy_mul s].
Definition fits_node (x : node) : Prop :=
  match x with NInfo => True | NLinks i | NValue i => i < 2 ^ 32 | NId a => a < 2 ^ 256 end.
Definition fits_slot (x : slot) : Prop :=
  match x with SLen => True | SItem i => i < 2 ^ 32 | SIndex a => a < 2 ^ 256 end.
Definition fits_item (e : item) : Prop :=
  match e with
  | IDelegationList x | IUnDelegationList x => fits_node x
  | IRecord c => c < 2 ^ 256
  | IManagers x => fits_slot x
  | INonce e => e < 2 ^ 64
  | _ => True
  end.
(** Everything in the state that is stored fits its type. *)
Definition fits (w : world) : Prop :=
  let g := w_cfg w in
  c_acc g < 2 ^ 256 /\ c_rpe g < 2 ^ 64 /\ c_minr g < 2 ^ 64 /\ c_unbond g < 2 ^ 64 /\ c_maxaddr g < 2 ^ 32
  /\ (forall s, c_score g = Some s -> fits_scoring s) /\ (forall a, c_migr g = Some a -> a < 2 ^ 256)
  /\ Forall (fun a => a < 2 ^ 256) (c_mgrs g) /\ N.of_nat (length (c_mgrs g)) < 2 ^ 32
  /\ Forall (fun a => a < 2 ^ 256) (w_dl w) /\ Forall (fun a => a < 2 ^ 256) (w_ul w)
  /\ (forall c p, w_pv w !! c = Some p -> c < 2 ^ 256 /\ fits_prov p)
  /\ (forall e n, w_un w !! e = Some n -> e < 2 ^ 64 /\ n < 2 ^ 64).

(** ** Calls of the mappers *)
Inductive change := Ins (a : addr) | Rem (a : addr).
Definition subject (x : change) : addr := match x with Ins a | Rem a => a end.
(** on a SetMapper and on an UnorderedSetMapper under the key [b], *)
Definition set_call (b : bytes) (x : change) (s : store) : option store :=
  match x with Ins a => sm_insert b a s | Rem a => sm_remove b a s end.
Definition vec_call (b : bytes) (x : change) (s : store) : option store :=
  match x with Ins a => us_insert b a s | Rem a => us_remove b a s end.
(** one after the other, *)
Fixpoint each {A : Type} (f : A -> store -> option store) (l : list A) (s : store) : option store :=
  match l with [] => Some s | x :: r => match f x s with Some s' => each f r s' | None => None end end.
(** and on the lists of the model. *)
Definition set_change (l : list addr) (x : change) : list addr :=
  match x with Ins a => set_insert a l | Rem a => set_remove a l end.
Definition vec_change (l : list addr) (x : change) : list addr :=
  match x with Ins a => set_insert a l | Rem a => swap_remove a l end.

(** A call of any mapper of the contract: a single value is written, or a list changed. *)
Inductive mcall := MSet (e : item) (v : bytes) | MDl (x : change) | MUl (x : change) | MMgr (x : change).
Definition single (e : item) : bool :=
  match e with IDelegationList _ | IUnDelegationList _ | IManagers _ => false | _ => true end.
Definition DL : bytes := text "delegationAddressesMap"%string.
Definition UL : bytes := text "unDelegationAddressesMap"%string.
Definition MGR : bytes := text "managers"%string.
Definition do_call (m : mcall) (s : store) : option store :=
  match m with
  | MSet e v => if single e then Some (put (key e) v s) else None
  | MDl x => set_call DL x s
  | MUl x => set_call UL x s
  | MMgr x => vec_call MGR x s
  end.

(** ** What the contract reads *)
(** TokenMapperState (framework): nothing, "pending" or the identifier. *)
Definition get_token (l : bytes) : tokst :=
  if decide (l = []) then TNotSet else if decide (l = text "pending"%string) then TPending else TIssued.
(** an optional value: nothing stored means none *)
Definition get_opt {A : Type} (get : bytes -> option A) (l : bytes) : option (option A) :=
  match l with [] => Some None | _ => match get l with Some a => Some (Some a) | None => None end end.
(** Every read of the storage gives the value of the model. *)
Definition reads (s : store) (w : world) : Prop :=
  let g := w_cfg w in let k := w_pool w in let at_ e := s (key e) in
  get_state (at_ IState) = Some (c_active g) /\ get_num (at_ IFees) = c_fees g
  /\ get_addr (at_ IAccumulator) = Some (c_acc g) /\ get_int 8 (at_ IRoundsPerEpoch) = Some (c_rpe g)
  /\ get_int 8 (at_ IMinimumRounds) = Some (c_minr g) /\ get_int 4 (at_ IMaxAddresses) = Some (c_maxaddr g)
  /\ get_num (at_ IMaxSelected) = c_maxsel g /\ get_int 8 (at_ IUnbondPeriod) = Some (c_unbond g)
  /\ get_opt get_scoring (at_ IScoring) = Some (c_score g) /\ get_opt get_addr (at_ IMigration) = Some (c_migr g)
  /\ get_token (at_ ILsToken) = c_lstok g /\ get_token (at_ IUnstakeToken) = c_usttok g
  /\ us_items MGR s = Some (c_mgrs g)
  /\ (forall a, a < 2 ^ 256 -> us_contains MGR a s = Some (bool_decide (a ∈ c_mgrs g)))
  /\ get_num (at_ ISupply) = supply k /\ get_num (at_ IReserve) = reserve k
  /\ get_num (at_ IFeesReserve) = fees_res k /\ get_num (at_ IWithdrawn) = withdrawn k
  /\ get_num (at_ IPending) = pend k /\ get_num (at_ IPendingUnstake) = pfu k /\ get_num (at_ IPendingUnbond) = pfb k
  /\ sm_items DL s = Some (w_dl w) /\ sm_len DL s = Some (N.of_nat (length (w_dl w)))
  /\ sm_items UL s = Some (w_ul w) /\ sm_len UL s = Some (N.of_nat (length (w_ul w)))
  /\ (forall c, c < 2 ^ 256 -> get_opt get_record (at_ (IRecord c)) = Some (w_pv w !! c))
  /\ (forall e, e < 2 ^ 64 -> get_opt (get_int 8) (at_ (INonce e)) = Some (w_un w !! e)).

(** The storage keeps up with a history of the model: before the first and after every
    action it reads as the state of the model, and calls of the mappers lead from one
    to the next. *)
Fixpoint keeps_up (s : store) (w : world) (os : list op) : Prop :=
  reads s w
  /\ match os with
     | [] => True
     | o :: r => exists ms s', each do_call ms s = Some s' /\ keeps_up s' (fst (step w o)) r
     end.
(** The insertions into the provider lists: every provider that a batch picks is moved to
    the back, and a provider whose whitelisting succeeded is new. *)
Definition batch_call (e : eff) : bool := match e with XCall (KDeleg _ _ | KUndel _ _) => true | _ => false end.
Definition insertions (w : world) (o : op) (_ : status) (w' : world) : N :=
  N.of_nat (length (List.filter batch_call (w_log w')))
  + match o with
    | OCb i => match nth_error (w_res w) i with Some (KWhite _ _ _, RDone _) => 1 | _ => 0 end
    | _ => 0
    end.

(** ** Arguments that fit their types *)
(** Addresses have 32 bytes, and a BigUint fewer than 2^32. (That the integers of fixed
    width fit theirs is checked when the arguments are decoded.) *)
Definition typed (o : op) : Prop :=
  match o with
  | OTx _ _ _ ep =>
      match ep with
      | Whitelist c admin total cap _ _ => c < 2 ^ 256 /\ admin < 2 ^ 256 /\ fits_big total /\ fits_big cap
      | ChangeAdmin _ admin => admin < 2 ^ 256
      | ChangeParams _ total cap _ _ _ => fits_big total /\ fits_big cap
      | SetAccumulator a | SetMigrationSc a => a < 2 ^ 256
      | AddManagers l => Forall (fun a => a < 2 ^ 256) l
      | _ => True
      end
  | _ => True
  end.
(** EGLD that comes to the contract: with calls, and with replies. *)
Definition receives (w : world) (o : op) (s : status) (_ : world) : N :=
  match o with
  | OTx _ a _ _ => match s with SOk => a | _ => 0 end
  | OCb i => match nth_error (w_res w) i with Some x => comes_with x | None => 0 end
  | _ => 0
  end.
(** Managers that a call names. *)
Definition names_managers (_ : world) (o : op) (s : status) (_ : world) : N :=
  match o, s with OTx _ _ _ (AddManagers l), SOk => N.of_nat (length l) | _, _ => 0 end.

(** ** Lists *)
(** How many insertions, *)
Definition inserts (xs : list change) : N :=
  N.of_nat (length (List.filter (fun x => match x with Ins _ => true | Rem _ => false end) xs)).
(** whether the last word about [a] was an insertion. *)
Definition last_in (a : addr) (xs : list change) : bool :=
  fold_left (fun b x => if subject x =? a then match x with Ins _ => true | Rem _ => false end else b) xs false.
