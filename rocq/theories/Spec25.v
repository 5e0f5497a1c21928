(** Spec25.v — further vocabulary of the property statements (C133). *)
From Verif Require Export Spec9.

(** The action is a claim of the fees. *)
Definition is_claim (o : op) : bool := match o with OTx _ _ _ (ClaimFees _) => true | _ => false end.
(** The history without the claims of the fees. *)
Definition without_claims (os : list op) : list op := List.filter (fun o => negb (is_claim o)) os.
(** How the actions other than the claims end. *)
Fixpoint other_statuses (w : world) (os : list op) : list status :=
  match os with
  | [] => []
  | o :: r => (if is_claim o then [] else [snd (step w o)]) ++ other_statuses (fst (step w o)) r
  end.
