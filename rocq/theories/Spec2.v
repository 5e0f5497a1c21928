(** Spec2.v — further vocabulary of the property statements (C63 onwards). Like
    Spec.v, nothing here refers to the helpers of the contract model. *)
From Verif Require Export Spec.

(** Endpoints that only store configuration. *)
Definition stores_config (ep : endpoint) : bool :=
  match ep with
  | SetStateActive | SetStateInactive | SetAccumulator _ | SetFees _ | SetMinimumRounds _ | SetMaxAddresses _
  | SetMaxSelected _ | SetUnbondPeriod _ | AddManagers _ | RemoveManager _ | SetScoringConfig _ | SetMigrationSc _ => true
  | _ => false
  end.

(** What storing endpoint [ep] makes of configuration [g]: exactly the named
    value changes, every other one is spelled out as the old one. *)
Definition stored (ep : endpoint) (g g' : cfg) : Prop :=
  match ep with
  | SetStateActive => g' = Cfg true (c_fees g) (c_acc g) (c_rpe g) (c_minr g) (c_maxaddr g) (c_maxsel g) (c_unbond g) (c_score g) (c_migr g) (c_mgrs g) (c_lstok g) (c_usttok g)
  | SetStateInactive => g' = Cfg false (c_fees g) (c_acc g) (c_rpe g) (c_minr g) (c_maxaddr g) (c_maxsel g) (c_unbond g) (c_score g) (c_migr g) (c_mgrs g) (c_lstok g) (c_usttok g)
  | SetFees x => g' = Cfg (c_active g) x (c_acc g) (c_rpe g) (c_minr g) (c_maxaddr g) (c_maxsel g) (c_unbond g) (c_score g) (c_migr g) (c_mgrs g) (c_lstok g) (c_usttok g)
  | SetAccumulator x => g' = Cfg (c_active g) (c_fees g) x (c_rpe g) (c_minr g) (c_maxaddr g) (c_maxsel g) (c_unbond g) (c_score g) (c_migr g) (c_mgrs g) (c_lstok g) (c_usttok g)
  | SetMinimumRounds x => g' = Cfg (c_active g) (c_fees g) (c_acc g) (c_rpe g) x (c_maxaddr g) (c_maxsel g) (c_unbond g) (c_score g) (c_migr g) (c_mgrs g) (c_lstok g) (c_usttok g)
  | SetMaxAddresses x => g' = Cfg (c_active g) (c_fees g) (c_acc g) (c_rpe g) (c_minr g) x (c_maxsel g) (c_unbond g) (c_score g) (c_migr g) (c_mgrs g) (c_lstok g) (c_usttok g)
  | SetMaxSelected x => g' = Cfg (c_active g) (c_fees g) (c_acc g) (c_rpe g) (c_minr g) (c_maxaddr g) x (c_unbond g) (c_score g) (c_migr g) (c_mgrs g) (c_lstok g) (c_usttok g)
  | SetUnbondPeriod x => g' = Cfg (c_active g) (c_fees g) (c_acc g) (c_rpe g) (c_minr g) (c_maxaddr g) (c_maxsel g) x (c_score g) (c_migr g) (c_mgrs g) (c_lstok g) (c_usttok g)
  | SetScoringConfig x => g' = Cfg (c_active g) (c_fees g) (c_acc g) (c_rpe g) (c_minr g) (c_maxaddr g) (c_maxsel g) (c_unbond g) (Some x) (c_migr g) (c_mgrs g) (c_lstok g) (c_usttok g)
  | SetMigrationSc x => g' = Cfg (c_active g) (c_fees g) (c_acc g) (c_rpe g) (c_minr g) (c_maxaddr g) (c_maxsel g) (c_unbond g) (c_score g) (Some x) (c_mgrs g) (c_lstok g) (c_usttok g)
  | AddManagers l =>
      g' = Cfg (c_active g) (c_fees g) (c_acc g) (c_rpe g) (c_minr g) (c_maxaddr g) (c_maxsel g) (c_unbond g) (c_score g) (c_migr g) (c_mgrs g') (c_lstok g) (c_usttok g)
      /\ (forall x, x ∈ c_mgrs g' <-> x ∈ l \/ x ∈ c_mgrs g)
      /\ NoDup (c_mgrs g') /\ exists new, c_mgrs g' = c_mgrs g ++ new /\ new `sublist_of` l
  | RemoveManager m =>
      g' = Cfg (c_active g) (c_fees g) (c_acc g) (c_rpe g) (c_minr g) (c_maxaddr g) (c_maxsel g) (c_unbond g) (c_score g) (c_migr g) (c_mgrs g') (c_lstok g) (c_usttok g)
      /\ (forall x, x ∈ c_mgrs g' <-> x <> m /\ x ∈ c_mgrs g)
      /\ NoDup (c_mgrs g')
      /\ (m ∉ c_mgrs g -> c_mgrs g' = c_mgrs g)
      /\ (forall l, c_mgrs g = l ++ [m] -> c_mgrs g' = l)
      /\ (forall l l' z, c_mgrs g = l ++ m :: l' ++ [z] -> c_mgrs g' = l ++ z :: l')
  | _ => False
  end.

(** Values a storing endpoint accepts. *)
Definition storable (ep : endpoint) : Prop :=
  match ep with
  | SetMinimumRounds x | SetUnbondPeriod x => x < 2 ^ 64
  | SetMaxAddresses x => 1 <= x < 2 ^ 32
  | SetMaxSelected x => 1 <= x
  | SetMigrationSc x => is_smart_contract x = true
  | SetScoringConfig s =>
      k_min_nodes s < 2 ^ 64 /\ k_max_nodes s < 2 ^ 64 /\ k_min_apy s < 2 ^ 64 /\ k_max_apy s < 2 ^ 64
      /\ k_max_score s < 2 ^ 64 /\ k_exp s < 2 ^ 64 /\ k_apy_mul s < 2 ^ 64
      /\ k_stake_w s + k_apy_w s + k_nodes_w s = 100
  | ep => stores_config ep = true
  end.

(** The same world but for the configuration, the provider records, the
    outstanding calls or the pool and the EGLD; no effects. *)
Definition only_config (w w' : world) : Prop :=
  w' = World (w_cfg w') (w_pool w) (w_dl w) (w_ul w) (w_pv w) (w_un w) (w_egld w) (w_ls w) (w_ust w) (w_attr w)
             (w_last w) (w_epoch w) (w_owner w) (w_calls w) (w_res w) (w_live w) [].
Definition only_record (w w' : world) : Prop :=
  w' = World (w_cfg w) (w_pool w) (w_dl w) (w_ul w) (w_pv w') (w_un w) (w_egld w) (w_ls w) (w_ust w) (w_attr w)
             (w_last w) (w_epoch w) (w_owner w) (w_calls w) (w_res w) (w_live w) [].
Definition only_new_call (k : call) (w w' : world) : Prop :=
  w' = World (w_cfg w) (w_pool w) (w_dl w) (w_ul w) (w_pv w) (w_un w) (w_egld w) (w_ls w) (w_ust w) (w_attr w)
             (w_last w) (w_epoch w) (w_owner w) (w_calls w ++ [k]) (w_res w) (w_live w) [XCall k].

(** Payments an accepted transaction carries, by endpoint. *)
Definition payment_fits (ep : endpoint) (eg : N) (pays : list pay) : Prop :=
  match ep with
  | Delegate => 0 < eg /\ pays = []
  | UnDelegate => eg = 0 /\ exists x, 0 < x /\ pays = [Pay TokLs x]
  | Withdraw => (eg = 0 \/ pays = []) /\ Forall (fun p => 0 < y_amt p /\ exists n, y_tok p = TokUst n) pays
  | Whitelist _ _ _ _ _ _ => ONE_EGLD <= eg /\ pays = []
  | RegisterLsToken | RegisterUnstakeToken | MigratePending | AddRewards => pays = []
  | _ => eg = 0 /\ pays = []
  end.

(** * Who gets what in a batch, from the provider records and the scoring
    configuration alone *)
(** Record of a provider; an empty one if there is none. *)
Definition rec (w : world) (c : addr) : prov := default (Prov 0 0 0 0 0 0 0 false 0 0) (w_pv w !! c).

(** A value rated from 0 at [lo] and below to 10000 at [hi] and above. *)
Definition rating (v lo hi : N) : N :=
  if v <? lo then 0 else if hi <? v then 10000 else (v - lo) * 10000 / (hi - lo).
(** Points of a category for rating [r]; exponents are 32-bit numbers. *)
Definition points (r e : N) (sc : scfg) : N := r ^ (e mod 2 ^ 32) * k_max_score sc / 10000.

(** Score of a provider: nodes, APY and share of the net stake [total] of all
    candidates, weighted. Few nodes, a high APY and a small share are good for a
    delegation; the opposite is good for an un-delegation. *)
Definition deleg_score (sc : scfg) (total : N) (p : prov) : N :=
  points (10000 - rating (p_nodes p) (k_min_nodes sc) (k_max_nodes sc)) (k_exp sc) sc * k_nodes_w sc
  + points (rating (p_apy p) (k_min_apy sc) (k_max_apy sc)) (k_apy_mul sc) sc * k_apy_w sc
  + (if total =? 0 then points (k_max_score sc) (k_exp sc) sc
     else points (10000 - rating (net_stake p) 0 total) (k_exp sc) sc) * k_stake_w sc.
Definition undel_score (sc : scfg) (total : N) (p : prov) : N :=
  points (rating (p_nodes p) (k_min_nodes sc) (k_max_nodes sc)) (k_exp sc) sc * k_nodes_w sc
  + points (10000 - rating (p_apy p) (k_min_apy sc) (k_max_apy sc)) (k_apy_mul sc) sc * k_apy_w sc
  + (if total =? 0 then points (k_max_score sc) (k_exp sc) sc
     else points (rating (net_stake p) 0 total) (k_exp sc) sc) * k_stake_w sc.

(** A provider to which 1 EGLD more may be delegated. *)
Definition takes_more (p : prov) : bool :=
  p_elig p && ((p_cap p =? 0) || (net_stake p + ONE_EGLD <=? p_cap p)).
(** Candidates of a delegation of [a]: the first of those in the list, as many as
    there are whole EGLD in [a], up to the configured number. *)
Definition candidates (w : world) (a : N) : list addr :=
  firstn (N.to_nat (N.min (a / ONE_EGLD) (c_maxsel (w_cfg w))))
         (List.filter (fun c => takes_more (rec w c)) (w_dl w)).
Definition net_of (w : world) (l : list addr) : N := sumN (map (fun c => net_stake (rec w c)) l).

(** Proportional share of [c] among the candidates [l], and the share cut by what
    the provider reports as free. *)
Definition deleg_share (w : world) (sc : scfg) (a : N) (l : list addr) (c : addr) : N :=
  deleg_score sc (net_of w l) (rec w c) * a / sumN (map (fun d => deleg_score sc (net_of w l) (rec w d)) l).
Definition cut_share (w : world) (sc : scfg) (a : N) (l : list addr) (c : addr) : N :=
  let s := deleg_share w sc a l c in
  if p_cap (rec w c) =? 0 then s else N.min s (p_cap (rec w c) - p_total (rec w c)).

(** Providers with net stake, in the order of the un-delegation list. *)
Definition holders (w : world) : list addr :=
  List.filter (fun c => 0 <? net_stake (rec w c)) (w_ul w).
(** What one provider counts for when the candidates of an un-delegation are
    chosen: the average, or what it has less a remainder of 1 EGLD. *)
Definition counts_for (average : N) (p : prov) : N :=
  let n := net_stake p in
  if average <=? n then average else if 2 * ONE_EGLD <? n then n - ONE_EGLD else n.
(** [l] suffices as candidates for an un-delegation of [a]. *)
Definition enough (w : world) (a : N) (l : list addr) : Prop :=
  let k := N.min (N.min (a / ONE_EGLD) (c_maxsel (w_cfg w))) (N.of_nat (length (w_ul w))) in
  let average := (a / k + a / c_maxsel (w_cfg w)) / 2 in
  k <= N.of_nat (length l) /\ a <= sumN (map (fun c => counts_for average (rec w c)) l).
(** How many candidates an un-delegation may have: the configured number as far as
    it fits 32 bits. *)
Definition undel_limit (w : world) : N := c_maxsel (w_cfg w) mod 2 ^ 32.
(** The candidates: the shortest prefix of the holders that suffices, all of them
    or [undel_limit] of them if none does. *)
Definition undel_candidates (w : world) (a : N) (l : list addr) : Prop :=
  exists r, holders w = l ++ r
  /\ N.of_nat (length l) <= undel_limit w
  /\ (forall l1 c l2, l = l1 ++ c :: l2 -> ~ enough w a l1)
  /\ (r = [] \/ N.of_nat (length l) = undel_limit w \/ enough w a l).
Definition undel_share (w : world) (sc : scfg) (a : N) (l : list addr) (c : addr) : N :=
  undel_score sc (net_of w l) (rec w c) * a / sumN (map (fun d => undel_score sc (net_of w l) (rec w d)) l).
