(** Spec26.v — further vocabulary of the property statements (C134). *)
From Verif Require Export Spec10.

(** The action is a withdrawal. *)
Definition is_withdrawal (o : op) : bool := match o with OTx _ _ _ Withdraw => true | _ => false end.
(** The history without the withdrawals. *)
Definition without_withdrawals (os : list op) : list op := List.filter (fun o => negb (is_withdrawal o)) os.
(** How the other actions end. *)
Fixpoint statuses_besides (w : world) (os : list op) : list status :=
  match os with
  | [] => []
  | o :: r => (if is_withdrawal o then [] else [snd (step w o)]) ++ statuses_besides (fst (step w o)) r
  end.

(** Nobody spends unstake tokens otherwise than by withdrawing them, or transferring what
    they have; and no EGLD comes with a withdrawal. *)
Definition spends_properly (w : world) (o : op) : Prop :=
  match o with
  | OTx _ e _ Withdraw => e = 0
  | OTx _ _ ps _ => Forall (fun p => match y_tok p with TokUst _ => False | _ => True end) ps
  | OMoveUst n u _ a => a <= ust_of n u w
  | _ => True
  end.

(** EGLD paid to [u] by a withdrawal, and the tokens of nonce [n] given up for it. *)
Definition withdrawn_by (u : addr) (_ : world) (o : op) (s : status) (w' : world) : N :=
  match o, s with OTx y _ _ Withdraw, SOk => if y =? u then egld_sent u w' else 0 | _, _ => 0 end.
Definition tokens_given (n : N) (u : addr) (w : world) (o : op) (s : status) (w' : world) : N :=
  match o, s with OTx y _ _ Withdraw, SOk => if y =? u then ust_of n u w - ust_of n u w' else 0 | _, _ => 0 end.
