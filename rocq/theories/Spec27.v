(** Spec27.v — further vocabulary of the property statements (C135). *)
From Verif Require Export Spec25 Spec26.

(** The action was refused. *)
Definition refused (s : status) : bool := match s with SErr _ | SInvalid => true | _ => false end.
(** The action, ending with [s], is neither a withdrawal nor a claim of the fees nor refused. *)
Definition matters (o : op) (s : status) : bool := negb (is_withdrawal o) && negb (is_claim o) && negb (refused s).
(** What matters of a history. *)
Fixpoint essence (w : world) (os : list op) : list op :=
  match os with
  | [] => []
  | o :: r => (if matters o (snd (step w o)) then [o] else []) ++ essence (fst (step w o)) r
  end.
(** How these actions end, amid the others. *)
Fixpoint essential_statuses (w : world) (os : list op) : list status :=
  match os with
  | [] => []
  | o :: r => (if matters o (snd (step w o)) then [snd (step w o)] else []) ++ essential_statuses (fst (step w o)) r
  end.
