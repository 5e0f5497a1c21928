(** Spec12.v — vocabulary of property C109: the same world with the accounts renamed. *)
From Verif Require Export Spec11.

(** A renaming of accounts: different accounts get different names; the contract, the zero
    address and the delegation manager keep theirs; smart contracts are named like smart
    contracts and the others like others. *)
Record renaming (f : addr -> addr) : Prop := {
  rn_inj : forall a b, f a = f b -> a = b;
  rn_self : f SELF = SELF;
  rn_zero : f 0 = 0;
  rn_manager : f DELEGATION_MANAGER = DELEGATION_MANAGER;
  rn_kind : forall a, is_smart_contract (f a) = is_smart_contract a
}.

Section Renamed.
Variable f : addr -> addr.

Definition ren_prov (p : prov) : prov := set_p_admin (f (p_admin p)) p.
Definition ren_cfg (g : cfg) : cfg :=
  set_c_acc (f (c_acc g)) (set_c_migr (option_map f (c_migr g)) (set_c_mgrs (map f (c_mgrs g)) g)).
Definition ren_call (k : call) : call :=
  match k with
  | KDeleg c a => KDeleg (f c) a
  | KUndel c a => KUndel (f c) a
  | KWithd c => KWithd (f c)
  | KClaim l => KClaim (map f l)
  | KWhite c a u => KWhite (f c) a (f u)
  | KIssue ls u a => KIssue ls (f u) a
  end.
Definition ren_eff (e : eff) : eff :=
  match e with
  | XEgld u a => XEgld (f u) a
  | XLs u a => XLs (f u) a
  | XUst u n a => XUst (f u) n a
  | XDeposit u a => XDeposit (f u) a
  | XCall k => XCall (ren_call k)
  | EvAdd a u p t => EvAdd a (f u) p t
  | EvRemove a u p t => EvRemove a (f u) p t
  | EvWithdrawPending a c u p t => EvWithdrawPending a (f c) (f u) p t
  | EvRevenue a t => EvRevenue a t
  | EvClaim a u p t => EvClaim a (f u) p t
  | EvGeneral u p t => EvGeneral (f u) p t
  end.
Definition ren_key (k : N * addr) : N * addr := (fst k, f (snd k)).

(** The world with the accounts renamed. *)
Definition ren (w : world) : world :=
  World (ren_cfg (w_cfg w)) (w_pool w) (map f (w_dl w)) (map f (w_ul w))
    (kmap f (ren_prov <$> w_pv w)) (w_un w) (w_egld w) (kmap f (w_ls w)) (kmap ren_key (w_ust w))
    (w_attr w) (w_last w) (w_epoch w) (f (w_owner w)) (map ren_call (w_calls w))
    (map (fun x => (ren_call (fst x), snd x)) (w_res w)) (kmap f (w_live w)) (map ren_eff (w_log w)).

(** The action with the accounts renamed. *)
Definition ren_ep (ep : endpoint) : endpoint :=
  match ep with
  | WithdrawPending c => WithdrawPending (f c)
  | Whitelist c a t k n y => Whitelist (f c) (f a) t k n y
  | ChangeAdmin c a => ChangeAdmin (f c) (f a)
  | ChangeParams c t k n y b => ChangeParams (f c) t k n y b
  | SetAccumulator a => SetAccumulator (f a)
  | AddManagers l => AddManagers (map f l)
  | RemoveManager a => RemoveManager (f a)
  | Migrate a u => Migrate a (f u)
  | SetMigrationSc a => SetMigrationSc (f a)
  | _ => ep
  end.
Definition ren_op (o : op) : op :=
  match o with
  | OTx u a pays ep => OTx (f u) a pays (ren_ep ep)
  | OMoveLs u v a => OMoveLs (f u) (f v) a
  | OMoveUst n u v a => OMoveUst n (f u) (f v) a
  | OOwner a => OOwner (f a)
  | OProvider c x u => OProvider (f c) x u
  | _ => o
  end.
End Renamed.

(** Two accounts change places. *)
Definition swap (a b x : addr) : addr := if x =? a then b else if x =? b then a else x.
(** An ordinary name: not the contract, the zero address or the delegation manager. *)
Definition ordinary (a : addr) : Prop := a <> SELF /\ a <> 0 /\ a <> DELEGATION_MANAGER.

(** [a] is mentioned in a call. *)
Definition in_call (a : addr) (k : call) : Prop :=
  match k with
  | KDeleg c _ | KUndel c _ | KWithd c => a = c
  | KClaim l => a ∈ l
  | KWhite c _ u => a = c \/ a = u
  | KIssue _ u _ => a = u
  end.
(** A newcomer: an account that has no token, no role and no record and is not mentioned
    in any call. *)
Definition newcomer (a : addr) (w : world) : Prop :=
  ordinary a /\ a <> w_owner w /\ a <> c_acc (w_cfg w) /\ c_migr (w_cfg w) <> Some a /\ a ∉ c_mgrs (w_cfg w)
  /\ a ∉ w_dl w /\ a ∉ w_ul w /\ w_pv w !! a = None /\ (forall c p, w_pv w !! c = Some p -> p_admin p <> a)
  /\ w_ls w !! a = None /\ (forall n, w_ust w !! (n, a) = None) /\ w_live w !! a = None
  /\ Forall (fun k => ~ in_call a k) (w_calls w) /\ Forall (fun x => ~ in_call a (fst x)) (w_res w).
