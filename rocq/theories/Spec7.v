(** Spec7.v — vocabulary of C97 and C98: the ways by which EGLD leaves the contract and
    by which accounts get tokens. *)
From Verif Require Export Spec5.

(** Tokens attached to a transaction, added up. *)
Definition handed_in (pays : list pay) : N := sumN (map y_amt pays).

(** The owner and the managers. *)
Definition may_manage (u : addr) (w : world) : Prop := u = w_owner w \/ u ∈ c_mgrs (w_cfg w).

(** [leaves w o e]: what has to be the case for action [o] in [w] to send EGLD (or a call
    with EGLD) as recorded by [e]. *)
Definition leaves (w : world) (o : op) (e : eff) : Prop :=
  match e with
  | XEgld v a =>
      (exists x, o = OTx v 0 [Pay TokLs x] UnDelegate /\ 0 < a <= egld_worth w x /\ a <= pending_egld w)
      \/ (exists eg pays, o = OTx v eg pays Withdraw /\ a = N.min (handed_in pays) (total_withdrawn w))
      \/ (exists i c, o = OCb i /\ nth_error (w_res w) i = Some (KWhite c a v, RFail))
      \/ (exists i ls, o = OCb i /\ 0 < a /\ nth_error (w_res w) i = Some (KIssue ls v a, RFail))
  | XDeposit v a =>
      v = c_acc (w_cfg w) /\ 0 < a /\ a = fees_reserve w /\ exists u, o = OTx u 0 [] (ClaimFees true)
  | XCall (KDeleg c a) =>
      c ∈ w_dl w /\ a <= pending_egld w /\ exists u z, may_manage u w /\ o = OTx u 0 [] (DelegatePending z)
  | XCall (KWhite c a v) =>
      may_manage v w /\ ONE_EGLD <= a /\ w_pv w !! c = None
      /\ exists admin total cap nodes apy, o = OTx v a [] (Whitelist c admin total cap nodes apy)
  | XCall (KIssue ls v a) =>
      v = w_owner w /\ o = OTx v a [] (if ls then RegisterLsToken else RegisterUnstakeToken)
  | _ => True
  end.

(** EGLD members of a group paid for whitelisting a provider or issuing a token, ... *)
Definition advanced_by (S : group) (_ : world) (o : op) (s : status) (_ : world) : N :=
  match o, s with
  | OTx u a _ (Whitelist _ _ _ _ _ _ | RegisterLsToken | RegisterUnstakeToken), SOk => if S u then a else 0
  | _, _ => 0
  end.
(** ... what of it can still come back to them, ... *)
Definition advanced (S : group) (k : call) : N :=
  match k with KWhite _ a u | KIssue _ u a => if S u then a else 0 | _ => 0 end.
Definition may_come_back (S : group) (w : world) : N :=
  sumN (map (advanced S) (w_calls w))
  + sumN (map (fun x => match snd x with RFail => advanced S (fst x) | RDone _ => 0 end) (w_res w)).
(** ... and the EGLD value of the tokens they hand in: LS tokens at the current price,
    unstake tokens one for one as far as EGLD has been withdrawn for them. *)
Definition cashed_by (S : group) (w : world) (o : op) (s : status) (_ : world) : N :=
  match o, s with
  | OTx u _ pays UnDelegate, SOk => if S u then N.min (egld_worth w (handed_in pays)) (pending_egld w) else 0
  | OTx u _ pays Withdraw, SOk => if S u then N.min (handed_in pays) (total_withdrawn w) else 0
  | _, _ => 0
  end.
(** A member of the group asks for its tokens to be paid out. *)
Definition cashes_in (S : group) (o : op) : Prop :=
  match o with OTx u _ _ (UnDelegate | Withdraw) => S u = true | _ => False end.

(** [ls_appear w o v m]: what has to be the case for action [o] in [w] to give [v] [m] LS tokens more. *)
Definition ls_appear (w : world) (o : op) (v : addr) (m : N) : Prop :=
  (exists a, o = OTx v a [] Delegate /\ m = ls_worth w a)
  \/ (exists i c a r, o = OCb i /\ nth_error (w_res w) i = Some (KWhite c a v, RDone r) /\ m = ls_worth w a)
  \/ (exists a orig, o = OTx v 0 [] (Migrate a orig) /\ c_migr (w_cfg w) = Some v /\ m = ls_worth w a)
  \/ (exists from, o = OMoveLs from v m /\ m <= ls_balance from w).

(** [ust_appear w o w' n v m]: the same for [m] unstake tokens of nonce [n]. *)
Definition ust_appear (w : world) (o : op) (w' : world) (n : N) (v : addr) (m : N) : Prop :=
  (exists x, o = OTx v 0 [Pay TokLs x] UnDelegate /\ m + egld_sent v w' = egld_worth w x)
  \/ (exists from, o = OMoveUst n from v m /\ m <= ust_of n from w).

(** Rewards for the holders: credited by a delivery from the delegation manager, or sent in. *)
Definition rewards_in (w : world) (o : op) (s : status) (w' : world) : N :=
  reward_credited w o s w' + match o, s with OTx _ a _ AddRewards, SOk => a | _, _ => 0 end.
