(** Spec11.v — vocabulary of properties C106 to C108. *)
From Verif Require Export Spec10.

(** ** C106 *)
(** What a history says last about something: [said w o] is what action [o] of state [w]
    says about it, if anything. Actions that fail say nothing. *)
Fixpoint last_word {A : Type} (said : world -> op -> option A) (w : world) (os : list op) : option A :=
  match os with
  | [] => None
  | o :: r =>
      match last_word said (fst (step w o)) r with
      | Some a => Some a
      | None => match snd (step w o) with SOk => said w o | _ => None end
      end
  end.

(** The owner of the moment calls an endpoint, without payment; the owner or a manager
    of the moment does; the administrator of the record of [c] or one of those does. *)
Definition from_owner (w : world) (o : op) : option endpoint :=
  match o with OTx u 0 [] ep => if u =? w_owner w then Some ep else None | _ => None end.
Definition in_charge (u : addr) (w : world) : bool :=
  (u =? w_owner w) || existsb (N.eqb u) (c_mgrs (w_cfg w)).
Definition from_charge (w : world) (o : op) : option endpoint :=
  match o with OTx u _ [] ep => if in_charge u w then Some ep else None | _ => None end.
Definition from_admin (c : addr) (w : world) (o : op) : option endpoint :=
  match o with
  | OTx u 0 [] ep =>
      match w_pv w !! c with
      | Some p => if (u =? p_admin p) || in_charge u w then Some ep else None
      | None => None
      end
  | _ => None
  end.

(** What is said about the settings, *)
Definition said_active (w : world) (o : op) : option bool :=
  match from_owner w o with Some SetStateActive => Some true | Some SetStateInactive => Some false | _ => None end.
Definition said_fees (w : world) (o : op) : option N :=
  match from_owner w o with Some (SetFees x) => Some x | _ => None end.
Definition said_accumulator (w : world) (o : op) : option addr :=
  match from_owner w o with Some (SetAccumulator a) => Some a | _ => None end.
Definition said_rounds (w : world) (o : op) : option N :=
  match from_owner w o with Some (SetMinimumRounds r) => Some r | _ => None end.
Definition said_max_listed (w : world) (o : op) : option N :=
  match from_owner w o with Some (SetMaxAddresses n) => Some n | _ => None end.
Definition said_max_selected (w : world) (o : op) : option N :=
  match from_owner w o with Some (SetMaxSelected n) => Some n | _ => None end.
Definition said_period (w : world) (o : op) : option N :=
  match from_owner w o with Some (SetUnbondPeriod p) => Some p | _ => None end.
Definition said_migration (w : world) (o : op) : option (option addr) :=
  match from_owner w o with Some (SetMigrationSc a) => Some (Some a) | _ => None end.
Definition said_scoring (w : world) (o : op) : option (option scfg) :=
  match from_charge w o with Some (SetScoringConfig s) => Some (Some s) | _ => None end.
Definition said_owner (_ : world) (o : op) : option addr :=
  match o with OOwner a => Some a | _ => None end.
(** about [m] being a manager, *)
Definition said_manager (m : addr) (w : world) (o : op) : option bool :=
  match from_owner w o with
  | Some (AddManagers l) => if existsb (N.eqb m) l then Some true else None
  | Some (RemoveManager x) => if x =? m then Some false else None
  | _ => None
  end.

(** about the record of provider [c]: it is removed when its first stake is refused; *)
Definition removed (c : addr) (w : world) (o : op) : bool :=
  match o with
  | OCb i => match nth_error (w_res w) i with Some (KWhite d _ _, RFail) => d =? c | _ => false end
  | _ => false
  end.
(** [Some None]: there is no record any more; [Some (Some x)]: the entry is [x]; *)
Definition entry {A : Type} (c : addr) (said : world -> op -> option A) (w : world) (o : op) : option (option A) :=
  if removed c w o then Some None else match said w o with Some a => Some (Some a) | None => None end.
(** its administrator, *)
Definition said_admin (c : addr) (w : world) (o : op) : option addr :=
  match from_charge w o with
  | Some (Whitelist d a _ _ _ _) => if d =? c then Some a else None
  | Some (ChangeAdmin d a) => if d =? c then Some a else None
  | _ => None
  end.
(** its total stake, limit, nodes and yield, *)
Definition params_of (p : prov) : N * N * N * N := (p_total p, p_cap p, p_nodes p, p_apy p).
Definition said_params (c : addr) (w : world) (o : op) : option (N * N * N * N) :=
  match from_charge w o, from_admin c w o with
  | Some (Whitelist d _ t k n y), _ => if d =? c then Some (t, k, n, y) else None
  | _, Some (ChangeParams d t k n y _) => if d =? c then Some (t, k, n, y) else None
  | _, _ => None
  end.
(** and whether it may be given stake. *)
Definition said_eligible (c : addr) (w : world) (o : op) : option bool :=
  match from_charge w o, from_admin c w o with
  | Some (Whitelist d _ _ _ _ _), _ => if d =? c then Some true else None
  | _, Some (ChangeParams d _ _ _ _ b) => if d =? c then Some b else None
  | _, _ =>
      match o with
      | OCb i => match nth_error (w_res w) i with
                 | Some (KDeleg d _, RFail) => if d =? c then Some false else None
                 | _ => None
                 end
      | _ => None
      end
  end.

(** ** C108 *)
(** What an observer who sees the effects of an action makes of them: a liquidity event
    tells all seven amounts, a deposit at the fee accumulator empties the fees. *)
Definition learns (k : pool) (e : eff) : pool :=
  match reported e, e with
  | Some (p, _), _ => p
  | None, XDeposit _ _ => Pool (supply k) (reserve k) 0 (withdrawn k) (pend k) (pfu k) (pfb k)
  | None, _ => k
  end.
(** What the observer believes after a history. *)
Fixpoint watched (k : pool) (w : world) (os : list op) : pool :=
  match os with
  | [] => k
  | o :: r => watched (fold_left learns (w_log (fst (step w o))) k) (fst (step w o)) r
  end.
