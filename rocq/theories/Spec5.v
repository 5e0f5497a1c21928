(** Spec5.v — vocabulary of C90 onwards: what a group of accounts holds, pays and
    receives. Like Spec.v, nothing here refers to the helpers of the contract model. *)
From Verif Require Export Spec4.

(** A group of accounts. *)
Definition group := addr -> bool.
(** LS tokens and unstake tokens held by a group. *)
Definition ls_held (S : group) (w : world) : N := gsum (fun u v => if S u then v else 0) (w_ls w).
Definition ust_held (S : group) (w : world) : N := gsum (fun (k : N * N) v => if S (snd k) then v else 0) (w_ust w).
(** EGLD sent to members of a group by an action; EGLD paid by members with it. *)
Definition received_by (S : group) (_ : world) (_ : op) (_ : status) (w' : world) : N :=
  sumN (map (fun e => match e with XEgld u a => if S u then a else 0 | _ => 0 end) (w_log w')).
Definition paid_by (S : group) (_ : world) (o : op) (s : status) (_ : world) : N :=
  match o, s with OTx u a _ _, SOk => if S u then a else 0 | _, _ => 0 end.
(** Nobody outside the group initiates the action. *)
Definition only_group (S : group) (o : op) : Prop := forall u, initiator o = Some u -> S u = true.
(** Rewards credited to the holders by an action, after the protocol's share. *)
Definition reward_credited (w : world) (o : op) (s : status) (_ : world) : N :=
  match o, s with
  | OCb i, SOk =>
      match nth_error (w_res w) i with
      | Some (KClaim _, RDone v) => v - v * c_fees (w_cfg w) / 10000
      | _ => 0
      end
  | _, _ => 0
  end.
(** First stakes of new providers and prices for issuing a token that may still be
    turned into LS tokens or paid back. *)
Definition may_return (x : call * reply) : N :=
  match x with (KWhite _ a _, _) => a | (KIssue _ _ a, RFail) => a | _ => 0 end.
Definition deposits_under_way (w : world) : N :=
  sumN (map first_stake (w_calls w)) + sumN (map may_return (w_res w)).

(** Replies of providers to delegations, un-delegations and withdrawals, and
    deliveries of rewards. *)
Definition provider_reply (x : call * reply) : Prop :=
  match fst x with KDeleg _ _ | KUndel _ _ | KWithd _ | KClaim _ => True | _ => False end.
(** The provider a reply is about. *)
Definition about (x : call * reply) : option addr :=
  match fst x with KDeleg c _ | KUndel c _ | KWithd c => Some c | _ => None end.

(** Calls registered by an action, and whom they ask to stake or to un-stake. *)
Definition registered (w w' : world) : list call := skipn (length (w_calls w)) (w_calls w').
Definition asked_to_stake (w w' : world) : list addr :=
  flat_map (fun k => match k with KDeleg c _ => [c] | _ => [] end) (registered w w').
Definition asked_to_unstake (w w' : world) : list addr :=
  flat_map (fun k => match k with KUndel c _ => [c] | _ => [] end) (registered w w').
(** Number of providers ahead of [c] in a list. *)
Fixpoint ahead (c : addr) (l : list addr) : N :=
  match l with [] => 0 | d :: r => if d =? c then 0 else 1 + ahead c r end.
Definition overtakers (c : addr) (l asked : list addr) : N :=
  N.of_nat (length (List.filter (fun d => ahead d l <? ahead c l) asked)).
(** How many of the providers asked by an action stood ahead of [c]. *)
Definition staked_ahead (c : addr) (w : world) (_ : op) (_ : status) (w' : world) : N :=
  overtakers c (w_dl w) (asked_to_stake w w').
Definition unstaked_ahead (c : addr) (w : world) (_ : op) (_ : status) (w' : world) : N :=
  overtakers c (w_ul w) (asked_to_unstake w w').
