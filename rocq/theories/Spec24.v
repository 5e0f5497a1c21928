(** Spec24.v — further vocabulary of the property statements (C132). *)
From Verif Require Export Spec10.

(** The action takes no unstake tokens away from [u]. *)
Definition keeps_unstake_tokens (u : addr) (o : op) : Prop :=
  match o with
  | OTx y _ ps _ => y = u -> Forall (fun p => match y_tok p with TokUst _ => False | _ => True end) ps
  | OMoveUst _ y _ _ => y <> u
  | _ => True
  end.

(** If the action is a withdrawal, the pot covers all of it. *)
Definition pot_covers (w : world) (o : op) : Prop :=
  match o with OTx _ _ ps Withdraw => pay_total ps <= total_withdrawn w | _ => True end.
