(** Spec8.v — vocabulary of property C99. *)
From Verif Require Export Spec7.

(** The owner [o] issues a token at the price [a]; the call is answered while [n] other calls
    and [m] other replies wait. *)
Definition issue_ops (ep : endpoint) (o a : N) (n m : nat) : list op :=
  [OTx o a [] ep; OExec n (Some 0); OCb m].

(** Both tokens are issued and the contract is activated. *)
Definition go_live (o a b : N) (n m : nat) : list op :=
  issue_ops RegisterLsToken o a n m ++ issue_ops RegisterUnstakeToken o b n m ++ [OTx o 0 [] SetStateActive].
