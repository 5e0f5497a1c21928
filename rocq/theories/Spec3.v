(** Spec3.v — vocabulary of C71 onwards: totals over whole histories. Like
    Spec.v, nothing here refers to the helpers of the contract model. *)
From Verif Require Export Spec2.

(** Total over a history of an amount read off each action: the world before it,
    the action, its status, the world after it. *)
Fixpoint tally (f : world -> op -> status -> world -> N) (w : world) (os : list op) : N :=
  match os with
  | [] => 0
  | o :: r => f w o (snd (step w o)) (fst (step w o)) + tally f (fst (step w o)) r
  end.

(** EGLD an outstanding call carries to its destination. *)
Definition carries (k : call) : N :=
  match k with KDeleg _ a | KWhite _ a _ | KIssue _ _ a => a | _ => 0 end.

(** EGLD that comes back with a reply: what a failed call carried, or what a
    withdrawal or a claim of rewards brings. *)
Definition comes_with (x : call * reply) : N :=
  match x with
  | (k, RFail) => carries k
  | (KWithd _, RDone v) | (KClaim _, RDone v) => v
  | _ => 0
  end.

(** EGLD that arrives at the contract without being booked: plain transfers,
    EGLD sent along with withdraw, replies whose callback aborts. *)
Definition arrives_unbooked (w : world) (o : op) (s : status) (_ : world) : N :=
  match o, s with
  | ODonate a, SOk => a
  | OTx _ a _ Withdraw, SOk => a
  | OCb i, SCbFail _ | OAbort i, SCbFail _ => match nth_error (w_res w) i with Some x => comes_with x | None => 0 end
  | _, _ => 0
  end.

(** EGLD given to the contract: plain transfers and EGLD sent along with withdraw. *)
Definition gift (_ : world) (o : op) (s : status) (_ : world) : N :=
  match o, s with ODonate a, SOk => a | OTx _ a _ Withdraw, SOk => a | _, _ => 0 end.
(** A measure of the reply whose callback an action aborts. *)
Definition lost (f : call * reply -> N) (w : world) (o : op) (s : status) (_ : world) : N :=
  match o, s with
  | OCb i, SCbFail _ | OAbort i, SCbFail _ => match nth_error (w_res w) i with Some x => f x | None => 0 end
  | _, _ => 0
  end.

(** A measure of the call that a reply answers. *)
Definition by_call (f : call -> N) (x : call * reply) : N := f (fst x).

(** Protocol fee of the rewards delivered by an action: the configured share in
    1/10000, rounded down. *)
Definition fee_earned (w : world) (o : op) (s : status) (_ : world) : N :=
  match o, s with
  | OCb i, SOk =>
      match nth_error (w_res w) i with
      | Some (KClaim _, RDone v) => v * c_fees (w_cfg w) / 10000
      | _ => 0
      end
  | _, _ => 0
  end.

(** EGLD deposited to any accumulator, EGLD sent to any account. *)
Definition deposited (e : eff) : N := match e with XDeposit _ a => a | _ => 0 end.
Definition transferred (e : eff) : N := match e with XEgld _ a => a | _ => 0 end.
Definition fee_handed_over (_ : world) (_ : op) (_ : status) (w' : world) : N := sumN (map deposited (w_log w')).

(** EGLD that enters the system consisting of the contract and the providers:
    payments of successful transactions, plain transfers, rewards. *)
Definition egld_in (w : world) (o : op) (s : status) (_ : world) : N :=
  match o, s with
  | OTx _ a _ _, SOk => a
  | ODonate a, SOk => a
  | OExec i (Some v), SOk => match nth_error (w_calls w) i with Some (KClaim _) => v | _ => 0 end
  | OProvider _ x u, SOk => x + u
  | _, _ => 0
  end.

(** EGLD that leaves it: transfers to accounts, deposits to the accumulator, the
    price of issuing a token. *)
Definition egld_out (w : world) (o : op) (s : status) (w' : world) : N :=
  sumN (map transferred (w_log w')) + sumN (map deposited (w_log w'))
  + match o, s with
    | OExec i (Some _), SOk => match nth_error (w_calls w) i with Some (KIssue _ _ a) => a | _ => 0 end
    | OProvider c _ _, SOk => fst (live_of w c) + snd (live_of w c)
    | _, _ => 0
    end.

(** EGLD at the providers: active and un-delegated stake of the contract. *)
Definition at_providers (w : world) : N := gsum (fun _ x => fst x + snd x) (w_live w).
(** EGLD on the way to and from other contracts. *)
Definition under_way (w : world) : N := sumN (map carries (w_calls w)).
Definition on_way_back (w : world) : N := sumN (map comes_with (w_res w)).

(** All the EGLD there is for the users and the protocol, and all of it that has
    been promised to somebody: to the holders of the liquid token (the virtual
    reserve), to the holders of unstake tokens, and to the fee accumulator. *)
Definition assets (w : world) : N := contract_egld w + at_providers w + under_way w + on_way_back w.
Definition promises (w : world) : N := virtual_reserve w + ust_of_users w + fees_reserve w.

(** EGLD on its way that no book of the contract knows of yet: first stakes of new
    providers, payments for issuing a token, rewards that still have to be
    credited. *)
Definition first_stake (k : call) : N := match k with KWhite _ a _ | KIssue _ _ a => a | _ => 0 end.
Definition uncredited (x : call * reply) : N :=
  match x with
  | (KWhite _ a _, _) => a
  | (KIssue _ _ a, RFail) => a
  | (KClaim _, RDone v) => v
  | _ => 0
  end.
Definition not_booked_yet (w : world) : N :=
  sumN (map first_stake (w_calls w)) + sumN (map uncredited (w_res w)).

(** What a provider loses or adds of its own accord (slashing and the like). *)
Definition provider_loss (w : world) (o : op) (s : status) (_ : world) : N :=
  match o, s with OProvider c x u, SOk => fst (live_of w c) + snd (live_of w c) - (x + u) | _, _ => 0 end.
Definition provider_gain (w : world) (o : op) (s : status) (_ : world) : N :=
  match o, s with OProvider c x u, SOk => x + u - (fst (live_of w c) + snd (live_of w c)) | _, _ => 0 end.


(** The call whose reply the action delivers, and whether it had succeeded. *)
Definition delivers (w : world) (o : op) (k : call) (ok : bool) : Prop :=
  exists i r, o = OCb i /\ nth_error (w_res w) i = Some (k, r)
              /\ ok = match r with RDone _ => true | RFail => false end.

(** The books the contract keeps about a provider. *)
Definition books (p : prov) : bool * N * N * N * N := (p_elig p, p_staked p, p_unstaked p, p_pst p, p_pun p).

(** The only ways in which the books of provider [c] move. *)
Definition books_move (w : world) (o : op) (c : addr) (p p' : prov) : Prop :=
  let '(e, st, un, ps, pu) := books p in
  books p' = books p
  \/ (exists u t cap n y e', o = OTx u 0 [] (ChangeParams c t cap n y e') /\ books p' = (e', st, un, ps, pu))
  \/ (exists u x y, o = OTx u 0 [] (DelegatePending x) /\ ps <= y /\ books p' = (e, st, un, y, pu))
  \/ (exists u x y, o = OTx u 0 [] (UnDelegatePending x) /\ pu <= y /\ books p' = (e, st, un, ps, y))
  \/ (exists a, delivers w o (KDeleg c a) true /\ a <= ps /\ books p' = (e, st + a, un, ps - a, pu))
  \/ (exists a, delivers w o (KDeleg c a) false /\ a <= ps /\ books p' = (false, st, un, ps - a, pu))
  \/ (exists a, delivers w o (KUndel c a) true /\ a <= pu /\ a <= st /\ books p' = (e, st - a, un + a, ps, pu - a))
  \/ (exists a, delivers w o (KUndel c a) false /\ a <= pu /\ books p' = (e, st, un, ps, pu - a))
  \/ (exists i v, o = OCb i /\ nth_error (w_res w) i = Some (KWithd c, RDone v) /\ v <= un /\ books p' = (e, st, un - v, ps, pu))
  \/ (exists a u, delivers w o (KWhite c a u) true /\ books p' = (e, st + a, un, ps, pu)).

(** The same world with [x] more EGLD in the contract. *)
Definition richer (x : N) (w : world) : world := set_egld (w_egld w + x) w.

(** Nothing is under way. *)
Definition quiet (w : world) : Prop := w_calls w = [] /\ w_res w = [].

(** An operator collects from every provider all that is unbonding there. *)
Definition collect (m : addr) (w : world) : list op :=
  flat_map (fun c => [OTx m 0 [] (WithdrawPending c); OExec 0 (Some (snd (live_of w c))); OCb 0]) (w_dl w).

(** The release epoch of nonce [n] has come. *)
Definition ripe (w : world) (n : N) : bool :=
  match release_epoch n w with Some r => r <=? w_epoch w | None => false end.
(** All unstake tokens of users whose release epoch has come. *)
Definition matured_tokens (w : world) : N :=
  gsum (fun (k : N * N) v => if negb (snd k =? SELF) && ripe w (fst k) then v else 0) (w_ust w).
(** A redemption now would be released later than now. *)
Definition waits (w : world) : Prop := 0 < c_unbond (w_cfg w) /\ w_epoch w + c_unbond (w_cfg w) < 2 ^ 64.
Definition same_epoch (o : op) : Prop := match o with OEpoch e => e = 0 | _ => True end.
