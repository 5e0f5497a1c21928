(** Spec6.v — vocabulary of C95 and C56: what every provider is asked for in a batch, from the
    records, the scores and the amount alone. *)
From Verif Require Export Spec5.

(** Going through [l] in order with [r] to be placed, each gets what [rule] says. *)
Fixpoint in_turn (rule : addr -> N -> N) (l : list addr) (r : N) : list (addr * N) :=
  match l with [] => [] | c :: l => (c, rule c r) :: in_turn rule l (r - rule c r) end.
(** Going through a batch in order with [r] left over, each gets what [more] says on
    top of what it already gets. *)
Fixpoint topped_up (more : addr -> N -> N -> N) (b : list (addr * N)) (r : N) : list (addr * N) :=
  match b with [] => [] | (c, x) :: b => (c, x + more c x r) :: topped_up more b (r - more c x r) end.
(** A batch: whoever gets something in a first round shares in what is left over. *)
Definition two_rounds (rule : addr -> N -> N) (more : addr -> N -> N -> N) (l : list addr) (a : N) : list (addr * N) :=
  let b := List.filter (fun x => 0 <? snd x) (in_turn rule l a) in
  topped_up more b (a - sumN (map snd b)).

(** Share of [a] in proportion to a score, all that is left if nobody scores. *)
Definition proportion (score total a r : N) : N := if total =? 0 then r else score * a / total.

(** [v] as far as the cap of the provider allows on top of what it reports and [x]. *)
Definition under_cap (p : prov) (x v : N) : N := if p_cap p =? 0 then v else N.min (p_cap p - p_total p - x) v.
(** First round of a delegation: the share as far as it fits, unless below 1 EGLD. *)
Definition stake_first (p : prov) (s r : N) : N :=
  let x := under_cap p 0 (N.min s r) in if x <? ONE_EGLD then 0 else x.
Definition delegation_amounts (w : world) (sc : scfg) (a : N) : list (addr * N) :=
  let l := candidates w a in
  let score c := deleg_score sc (net_of w l) (rec w c) in
  two_rounds (fun c r => stake_first (rec w c) (proportion (score c) (sumN (map score l)) a r) r)
             (fun c x r => under_cap (rec w c) x r) l a.

(** First round of an un-delegation from net stake [n]: nothing when less than 1 EGLD is
    wanted; otherwise the share [s], though at least 1 EGLD and at most what is there
    and wanted. If that leaves less than 1 EGLD behind then all of the stake, or
    nothing when that is more than wanted. *)
Definition unstake_first (n s r : N) : N :=
  let x := N.max ONE_EGLD (N.min s (N.min n r)) in
  if r <? ONE_EGLD then 0 else if x + ONE_EGLD <=? n then x else if n <=? r then n else 0.
(** Left-overs: all the rest of the stake, or what is left over if 1 EGLD stays. *)
Definition unstake_more (n x r : N) : N :=
  if n <=? x + r then n - x else if x + r + ONE_EGLD <=? n then r else 0.
Definition undelegation_amounts (w : world) (sc : scfg) (a : N) (l : list addr) : list (addr * N) :=
  let score c := undel_score sc (net_of w l) (rec w c) in
  two_rounds (fun c r => unstake_first (net_stake (rec w c)) (proportion (score c) (sumN (map score l)) a r) r)
             (fun c x r => unstake_more (net_stake (rec w c)) x r) l a.

(** The parameters of provider [c] are left alone and it is not learnt that an
    un-delegation failed there. *)
Definition cap_kept (c : addr) (w : world) (o : op) : Prop :=
  (forall u eg pays t k n y e, o <> OTx u eg pays (ChangeParams c t k n y e))
  /\ (forall a, ~ delivers w o (KUndel c a) false).
