(** Spec10.v — vocabulary of property C102. *)
From Verif Require Export Spec9.

(** The actions by which the un-delegation queue is emptied: operator [m] sends the
    queue, or a part of it, out to the providers; a provider does what it is asked;
    a reply arrives. Nobody deposits. *)
Definition drains (m : addr) (o : op) : Prop :=
  match o with
  | OTx u 0 [] (UnDelegatePending _) => u = m
  | OExec 0 (Some 0) | OCb 0 => True
  | _ => False
  end.

(** The providers hold no stake of the contract. *)
Definition no_stake_left (w : world) : Prop := forall c, fst (live_of w c) = 0.

(** ** C103 *)
(** The action [o] adds rewards of [p] to the pool: a claimed reward arrives, of which
    the fee is taken off; or somebody adds rewards. *)
Definition adds_reward (w : world) (o : op) (p : N) : Prop :=
  (exists i l v, o = OCb i /\ nth_error (w_res w) i = Some (KClaim l, RDone v)
     /\ p = v - v * c_fees (w_cfg w) / 10000)
  \/ exists u, o = OTx u p [] AddRewards.

(** ** C104 *)
(** The EGLD paid by a withdrawal. *)
Definition withdrawal (_ : world) (o : op) (s : status) (w' : world) : N :=
  match o, s with OTx u _ _ Withdraw, SOk => egld_sent u w' | _, _ => 0 end.

(** All payments are unstake tokens whose release epoch is [e] at the latest. *)
Definition all_due (w : world) (e : N) (pays : list pay) : Prop :=
  Forall (fun p => 0 < y_amt p /\ exists n r, y_tok p = TokUst n /\ release_epoch n w = Some r /\ r <= e) pays.

(** ** C105 *)
(** A list of withdrawals: who, and with which tokens. *)
Definition cash_out (l : list (addr * list pay)) : list op := map (fun x => OTx (fst x) 0 (snd x) Withdraw) l.
(** What is paid for each of them. *)
Fixpoint payments (w : world) (l : list (addr * list pay)) : list N :=
  match l with
  | [] => []
  | (u, pays) :: r => let w' := fst (step w (OTx u 0 pays Withdraw)) in egld_sent u w' :: payments w' r
  end.
(** Tokens of nonce [n] that [u] hands in, and all that is handed in. *)
Definition brought (n : N) (u : addr) (l : list (addr * list pay)) : N :=
  sumN (map (fun x => if fst x =? u then pay_of_nonce n (snd x) else 0) l).
Definition claims_total (l : list (addr * list pay)) : N := sumN (map (fun x => pay_total (snd x)) l).
