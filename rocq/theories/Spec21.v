(** Spec21.v — vocabulary of C126. Nothing here refers to the helpers of the
    contract model. *)
From Verif Require Export Spec4.

(** How many providers of [l] can be given 1 EGLD more. *)
Definition takers_of (w : world) (l : list addr) : N := N.of_nat (length (List.filter (fun d => takes_more (rec w d)) l)).
(** How many providers a delegation of [a] goes to at most. *)
Definition spread (w : world) (a : N) : N := N.min (a / ONE_EGLD) (c_maxsel (w_cfg w)).
(** A delegation of [a] gets as far as provider [c] of the list. *)
Definition in_reach (w : world) (a : N) (c : addr) : Prop :=
  exists l1 l2, w_dl w = l1 ++ c :: l2 /\ takers_of w l1 < spread w a.
(** The other providers suffice for a delegation of [a]: one of them has room, and
    none that it gets to when [c] takes nothing is over its cap. *)
Definition others_suffice (w : world) (a : N) (c : addr) : Prop :=
  (exists d, d <> c /\ In d (w_dl w) /\ takes_more (rec w d) = true)
  /\ forall l1 d l2, w_dl w = l1 ++ d :: l2 -> d <> c ->
       takers_of w (List.filter (fun e => negb (e =? c)) l1) < spread w a -> within_cap (rec w d).

(** The action does not touch the books of provider [c]: it is not a change of
    its parameters, not a batch of unstaking, and no reply about it. *)
Definition leaves_alone (c : addr) (w : world) (o : op) : Prop :=
  match o with
  | OTx _ _ _ (ChangeParams d _ _ _ _ _) => d <> c
  | OTx _ _ _ (UnDelegatePending _) => False
  | OCb i => match nth_error (w_res w) i with Some (k, _) => provider_of k <> Some c | None => True end
  | _ => True
  end.
