(** Spec22.v — vocabulary of C127: a plain vault with shares. Nothing here refers to
    the helpers of the contract model. *)
From Verif Require Export Spec4.

(** A vault: shares in existence, assets, shares of every account. *)
Record vault := Vault { v_shares : N; v_assets : N; v_of : addr -> N }.
(** What can be booked: a deposit, a redemption, a gain, a transfer of shares. *)
Inductive booking := VIn (u : addr) (a : N) | VOut (u : addr) (x : N) | VGain (r : N) | VMove (from to : addr) (x : N).

Definition more_for (u : addr) (m : N) (f : addr -> N) : addr -> N := fun z => if z =? u then f z + m else f z.
Definition less_for (u : addr) (m : N) (f : addr -> N) : addr -> N := fun z => if z =? u then f z - m else f z.
(** Shares for [a] assets, assets for [x] shares: in proportion, rounded down; one
    for one in an empty vault. *)
Definition shares_for (v : vault) (a : N) : N := if v_assets v =? 0 then a else a * v_shares v / v_assets v.
Definition assets_for (v : vault) (x : N) : N := x * v_assets v / v_shares v.
Definition book (v : vault) (b : booking) : vault :=
  match b with
  | VIn u a => Vault (v_shares v + shares_for v a) (v_assets v + a) (more_for u (shares_for v a) (v_of v))
  | VOut u x => Vault (v_shares v - x) (v_assets v - assets_for v x) (less_for u x (v_of v))
  | VGain r => Vault (v_shares v) (v_assets v + r) (v_of v)
  | VMove from to x => Vault (v_shares v) (v_assets v) (more_for to x (less_for from x (v_of v)))
  end.
Definition empty_vault : vault := Vault 0 0 (fun _ => 0).
Definition replay (bs : list booking) : vault := fold_left book bs empty_vault.

(** What action [o] in state [w] means to the vault, if it succeeds. *)
Definition means (w : world) (o : op) : list booking :=
  match o with
  | OTx u eg pays ep =>
      match ep with
      | Delegate => [VIn u eg]
      | UnDelegate => match pays with [Pay TokLs x] => [VOut u x] | _ => [] end
      | Migrate a _ => [VIn u a]
      | AddRewards => [VGain eg]
      | _ => []
      end
  | OMoveLs from to x => [VMove from to x]
  | OCb i =>
      match nth_error (w_res w) i with
      | Some (KWhite _ a u, RDone _) => [VIn u a]
      | Some (KClaim _, RDone r) => [VGain (r - r * c_fees (w_cfg w) / 10000)]
      | _ => []
      end
  | _ => []
  end.
Fixpoint bookings (w : world) (os : list op) : list booking :=
  match os with
  | [] => []
  | o :: r => (match snd (step w o) with SOk => means w o | _ => [] end) ++ bookings (fst (step w o)) r
  end.

(** The contract is, to its holders, the vault [v]. *)
Definition shows (w : world) (v : vault) : Prop :=
  ls_supply w = v_shares v /\ virtual_reserve w = v_assets v /\ forall u, ls_balance u w = v_of v u.

(** Bookings that make sense one after the other: deposits and redemptions of at
    least 1 EGLD that bring at least one unit, no more shares than there are, the
    contract itself not being a party that gives. *)
Fixpoint sensible (v : vault) (bs : list booking) : Prop :=
  match bs with
  | [] => True
  | b :: r =>
      match b with
      | VIn u a => u <> SELF /\ ONE_EGLD <= a /\ 0 < shares_for v a
      | VOut u x => u <> SELF /\ 0 < x <= v_of v u /\ ONE_EGLD <= assets_for v x
      | VGain _ => True
      | VMove from _ x => from <> SELF /\ x <= v_of v from
      end /\ sensible (book v b) r
  end.
