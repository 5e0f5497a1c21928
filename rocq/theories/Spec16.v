(** Spec16.v — vocabulary of C121: the contract's own unstake tokens. *)
From Verif Require Export Spec3.

(** The nonce is in the contract's table of unbonding epochs. *)
Definition in_table (n : N) (w : world) : Prop := exists k, w_un w !! k = Some n.

(** Units of nonce [n] that somebody transfers to the contract without a call. *)
Definition ust_gift (n : N) (_ : world) (o : op) (s : status) (_ : world) : N :=
  match o, s with
  | OMoveUst m _ to a, SOk => if (m =? n) && (to =? SELF) then a else 0
  | _, _ => 0
  end.
