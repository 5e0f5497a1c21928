(** P_Select.v — properties C69 and C70: which providers are chosen for a batch and
    what each gets, computed from the provider records and the scoring
    configuration alone (Spec2.v). *)
From Verif Require Import Scenario L_Select.

(** C69 a delegation batch: the providers served are, in order, the candidates
    whose share (their score over the scores of all candidates, cut by the free
    space they report) is at least 1 EGLD; each gets at least its share; and what
    the shares leave over goes to the earliest that still has room: if one served
    provider is left with room then everything was distributed and all later ones
    got exactly their share. *)
Theorem C69_delegation_split : forall w u eg pays o sc,
  Reachable w -> snd (step w (OTx u eg pays (DelegatePending o))) = SOk ->
  c_score (w_cfg w) = Some sc -> N.of_nat (length (w_dl w)) < 2 ^ 32 ->
  let w' := fst (step w (OTx u eg pays (DelegatePending o))) in
  let a := default (pending_egld w) o in
  let l := candidates w a in
  0 < sumN (map (fun c => deleg_score sc (net_of w l) (rec w c)) l) ->
  exists b : list (addr * N),
    w_calls w' = w_calls w ++ map (fun x => KDeleg (fst x) (snd x)) b
    /\ map fst b = List.filter (fun c => ONE_EGLD <=? cut_share w sc a l c) l
    /\ (forall c x, In (c, x) b -> cut_share w sc a l c <= x)
    /\ (forall b1 c x b2, b = b1 ++ (c, x) :: b2 ->
        p_cap (rec w c) = 0 \/ x + p_total (rec w c) < p_cap (rec w c) ->
        sumN (map snd b) = a /\ forall d y, In (d, y) b2 -> y = cut_share w sc a l d).
Proof. exact delegate_split. Qed.
Print Assumptions C69_delegation_split.

(** Case: 100 EGLD over two providers; the one unit lost by rounding goes to the
    first. *)
Example C69_case :
  let l := candidates w_deposit (100 * E) in
  Reachable w_deposit /\ snd (step w_deposit (OTx 100 0 [] (DelegatePending None))) = SOk
  /\ c_score (w_cfg w_deposit) = Some scfg_default /\ pending_egld w_deposit = 100 * E /\ l = [1000; 1001]
  /\ map (fun c => deleg_score scfg_default (net_of w_deposit l) (rec w_deposit c)) l = [6481251337340570; 20481027709995440]
  /\ map (cut_share w_deposit scfg_default (100 * E) l) l = [24038217711350872306; 75961782288649127693]
  /\ w_calls (fst (step w_deposit (OTx 100 0 [] (DelegatePending None))))
     = [KDeleg 1000 24038217711350872307; KDeleg 1001 75961782288649127693].
Proof. split; [exact w_deposit_reach|]. vm_compute. repeat split. Qed.

(** C70 an un-delegation batch: the candidates are the shortest prefix of the
    providers with net stake that suffices (at most as many as the lowest 32 bits of the
    configured number say), only
    candidates are served, in order; and if no share is below 1 EGLD or leaves less
    than 1 EGLD behind, every candidate gets exactly its share and what rounding
    leaves goes to the first that keeps 1 EGLD. *)
Theorem C70_undelegation_candidates : forall w u eg pays o,
  Reachable w -> snd (step w (OTx u eg pays (UnDelegatePending o))) = SOk ->
  N.of_nat (length (w_ul w)) < 2 ^ 32 ->
  let w' := fst (step w (OTx u eg pays (UnDelegatePending o))) in
  let a := default (unstake_queue w) o in
  exists l, undel_candidates w a l
  /\ exists b : list (addr * N), w_calls w' = w_calls w ++ map (fun x => KUndel (fst x) (snd x)) b
  /\ map fst b `sublist_of` l
  /\ (forall sc, c_score (w_cfg w) = Some sc ->
      0 < sumN (map (fun c => undel_score sc (net_of w l) (rec w c)) l) ->
      (forall c, In c l -> ONE_EGLD <= undel_share w sc a l c /\ undel_share w sc a l c + ONE_EGLD <= net_stake (rec w c)) ->
      let r := a - sumN (map (undel_share w sc a l) l) in
      let fits c := undel_share w sc a l c + r + ONE_EGLD <= net_stake (rec w c) in
      (b = map (fun c => (c, undel_share w sc a l c)) l /\ (r = 0 \/ forall c, In c l -> ~ fits c))
      \/ exists l1 c l2, l = l1 ++ c :: l2 /\ fits c /\ (forall d, In d l1 -> ~ fits d)
         /\ b = map (fun c => (c, undel_share w sc a l c)) l1 ++ (c, undel_share w sc a l c + r)
                 :: map (fun c => (c, undel_share w sc a l c)) l2).
Proof. exact undel_candidates_picked. Qed.
Print Assumptions C70_undelegation_candidates.

(** Case: 20 EGLD from two providers without dust; 1 EGLD from the first alone; and,
    with a configured number of 2^32 + 1, 20 EGLD from the first alone as well. *)
Definition w_wrapped : world := fst (step w_redeemed (OTx 100 0 [] (SetMaxSelected (2 ^ 32 + 1)))).
Example C70_case :
  let l := holders w_redeemed in
  Reachable w_redeemed /\ snd (step w_redeemed (OTx 100 0 [] (UnDelegatePending (Some (20 * E))))) = SOk
  /\ c_score (w_cfg w_redeemed) = Some scfg_default /\ l = [1000; 1001]
  /\ map (undel_share w_redeemed scfg_default (20 * E) l) l = [18799735271993227860; 1200264728006772139]
  /\ map (fun c => net_stake (rec w_redeemed c)) l = [25038217711350872307; 76961782288649127693]
  /\ w_calls (fst (step w_redeemed (OTx 100 0 [] (UnDelegatePending (Some (20 * E))))))
     = [KUndel 1000 18799735271993227861; KUndel 1001 1200264728006772139]
  /\ w_calls (fst (step w_redeemed (OTx 100 0 [] (UnDelegatePending (Some E))))) = [KUndel 1000 E]
  /\ Reachable w_wrapped /\ undel_limit w_wrapped = 1
  /\ w_calls (fst (step w_wrapped (OTx 100 0 [] (UnDelegatePending (Some (20 * E)))))) = [KUndel 1000 (20 * E)].
Proof. split; [exact w_redeemed_reach|]. do 7 (split; [vm_compute; reflexivity|]). split; [apply reach_step, w_redeemed_reach|]. vm_compute. repeat split. Qed.
