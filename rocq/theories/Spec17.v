(** Spec17.v — vocabulary of C122: calls that can be written as messages, replies as they
    are reported. *)
From Coq Require Import String.
From Verif Require Export Spec14 Spec15 Wire.
Open Scope N_scope.

(** Addresses have 32 bytes, and so have amounts. *)
Definition sendable (k : call) : Prop :=
  match k with
  | KDeleg c a | KUndel c a => c < 2 ^ 256 /\ a < 2 ^ 256
  | KWithd c => c < 2 ^ 256
  | KClaim l => Forall (fun c => c < 2 ^ 256) l
  | KWhite c a who => c < 2 ^ 256 /\ a < 2 ^ 256 /\ who < 2 ^ 256
  | KIssue _ _ _ => True
  end.
(** Accounts have addresses of 32 bytes. *)
Definition from_account (o : op) : Prop := match o with OTx u _ _ _ => u < 2 ^ 256 | _ => True end.

(** What may be reported to the callback: for a success the code 0 and the value that the
    function returns, if any; for a failure another code and perhaps a message. The callback of
    a withdrawal does not look. *)
Definition failure (rs : list bytes) : Prop :=
  exists e c m, is_int 4 e c /\ e <> 0 /\ (rs = [c] \/ rs = [c; m]).
Definition reported_as (k : call) (r : reply) (rs : list bytes) : Prop :=
  match k, r with
  | KWithd _, _ => True
  | KClaim _, RDone v => exists c b, rs = [c; b] /\ is_int 4 0 c /\ is_num v b
  | _, RDone _ => exists c, rs = [c] /\ is_int 4 0 c
  | _, RFail => failure rs
  end.

(** What happens in the network is typed, and no mock sits at the manager's address. *)
Definition nproper (x : nact) : Prop :=
  match x with NDo o => typed o /\ from_account o | NNew c _ => c <> DELEGATION_MANAGER | _ => True end.
(** EGLD that comes to the contract. *)
Definition nreceives (n : net) (x : nact) (s : status) (n' : net) : N :=
  match x with NDo o => receives (n_w n) o s (n_w n') | _ => 0 end.
